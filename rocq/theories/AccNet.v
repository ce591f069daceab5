(* C71: layers and networks. *)
From Coq Require Import Reals Lra Lia.
From Flocq Require Import Core.Core.
From Verif Require Import Base Num NumOrder ActModel ActProofs NeuronModel LayerModel NetModel Float32 StatReal F1Spec F1Float SoftProps FiniteSpec FiniteProofs FiniteLayers AccSpec AccProofs AccLayers.
Local Open Scope R_scope.
Local Open Scope outcome_scope.

Section L.
Variables expf tanhf : f32 -> f32.
Notation N := (Num32 expf tanhf).
Variable delta : R.
Hypothesis HA : accurate delta tanhf.

Lemma pairs_ok nn A (ns : list (@Neuron N)) (ms : list (@Neuron RNum)) : Forall2 (twin_neuron expf tanhf) ns ms ->
  Forall (fun q => (List.length (@n_w RNum q) <= nn)%nat /\ Rsum (map Rabs (@n_w RNum q)) <= A /\ Rabs (@n_bias RNum q) <= 1) ms ->
  Forall2 (pair_ok expf tanhf nn A (forallb (fun q => flat_act (@n_act RNum q)) ms)) ns ms.
Proof.
  intros H L. assert (K : forall q, In q ms -> forallb (fun q => flat_act (@n_act RNum q)) ms = true -> flat_act (@n_act RNum q) = true) by (intros q Hq E; rewrite forallb_forall in E; auto).
  revert K. generalize (forallb (fun q => flat_act (@n_act RNum q)) ms). intros all K. induction H as [|n m ns ms Hn _ IH]; constructor.
  - destruct (Forall_inv L) as (A1 & A2 & A3). split; [exact Hn|]. split; [exact A1|]. split; [exact A2|]. split; [exact A3|]. apply K. now left.
  - apply IH; [exact (Forall_inv_tail L)|]. intros q Hq. apply K. now right.
Qed.
(* the outputs of a layer before its optimizers *)
Definition base_error (nn : nat) (A B d : R) (m : @Layer RNum) : R := if pooling m then d else A * d + sum_error nn (A * B) + (delta + 3 * u24).
Lemma body_close nn A B d (b b' : @Body N) (c c' : @Body RNum) i os (x o : list f32) (X O : list R) reset : (Z.of_nat nn <= 2 ^ 22)%Z -> 0 <= A -> 1 <= B -> 0 <= d -> A * B <= bpow radix2 120 ->
  twin_body expf tanhf b c -> limited nn A (@mkLayer RNum i c os) -> Forall2 (close B d) x X -> @body_output N b x reset = Ok (o, b') -> @body_output RNum c X reset = Ok (O, c') ->
  Forall2 (close (next_size nn A B (@mkLayer RNum i c os)) (base_error nn A B d (@mkLayer RNum i c os))) o O.
Proof.
  intros H1 H2 H3 H4 H5 Ht Hl Hx Hr HR. unfold limited, layer_neurons in Hl. unfold next_size, base_error, flat_layer, pooling, layer_neurons. cbn [l_body] in *.
  destruct b as [ns|ns|ns|kd f ns], c as [ms|ms|ms|kd' f' ms]; try contradiction.
  - cbn [body_output twin_body] in *. apply bind_Ok_inv in Hr as ([o1 n1] & E1 & Hr). apply bind_Ok_inv in HR as ([O1 m1] & E2 & HR). apply pair_inj in Hr as (-> & _). apply pair_inj in HR as (-> & _).
    assert (P := pairs_ok nn A ns ms Ht Hl). cbn [negb andb].
    destruct (each2 _ _ _ _ (fun i a b c e a' b' Hab Ha Hb => simple_close expf tanhf delta HA nn A B d H1 H2 H3 H4 H5 _ a a' b b' x X c e Hab Hx Ha Hb) _ _ _ _ _ _ _ P E1 E2) as (Q & _). exact Q.
  - destruct Ht as (-> & Ef & Ek & En & Ei & Ht). assert (P := pairs_ok nn A ns ms Ht Hl).
    destruct kd'; cbn [body_output twin_body negb andb] in *; apply bind_Ok_inv in Hr as ([o1 n1] & E1 & Hr); apply bind_Ok_inv in HR as ([O1 m1] & E2 & HR); apply pair_inj in Hr as (-> & _); apply pair_inj in HR as (-> & _);
    first [exact (proj1 (conv_close expf tanhf delta HA nn A B d H1 H2 H3 H4 H5 _ _ _ _ _ _ _ _ _ _ _ En Ei Ek P Hx E1 E2)) | exact (proj1 (loc_close expf tanhf delta HA nn A B d H1 H2 H3 H4 H5 _ _ _ _ _ _ _ _ _ _ _ En Ei Ek Ef P Hx E1 E2)) | exact (pool_close expf tanhf nn B d H3 H4 _ _ _ _ _ _ _ _ En Ei Ek Hx E1 E2)].
Qed.
Lemma scale_close Sz e x V r q : 0 <= Sz -> 0 <= e -> fin32 r q -> Rabs q <= 1 -> close Sz e x V -> close Sz (e + (Sz * u24 + tiny)) (@fmul N x r) (V * q).
Proof.
  intros HS He Hr Hq (v & V1 & V2 & V3). assert (B : Rabs (v * q) <= Rabs v). { rewrite Rabs_mult. assert (P := Rabs_pos v). rewrite <- (Rmult_1_r (Rabs v)) at 2. apply Rmult_le_compat_l; assumption. }
  assert (Fv := fin32_format _ _ V1). assert (Fa : fmt (Rabs v)) by (now apply generic_format_abs). assert (Rb : Rabs (rnd (v * q)) <= Rabs v) by (now apply rnd_bound). assert (Bv := fin32_bound _ _ V1).
  exists (rnd (v * q)). split; [apply fin32_mul; auto; eapply Rle_lt_trans; [exact Rb|exact Bv]|]. split; [|eapply Rle_trans; [exact Rb|exact V3]].
  assert (R1 := rnd_rel (v * q)). assert (U := u24_pos). replace (rnd (v * q) - V * q) with ((v - V) * q + (rnd (v * q) - v * q)) by ring. eapply Rle_trans; [apply Rabs_triang|].
  assert (Rabs ((v - V) * q) <= e). { rewrite Rabs_mult. rewrite <- (Rmult_1_r e). apply Rmult_le_compat; auto using Rabs_pos. }
  assert (Rabs (v * q) * u24 <= Sz * u24) by (apply Rmult_le_compat_r; lra). lra.
Qed.
Lemma opts_close Sz (os : list (@LOpt N)) (ps : list (@LOpt RNum)) : 0 <= Sz -> Forall2 (twin_opt expf tanhf) os ps -> forall e (v o : list f32) (V O : list R), 0 <= e -> Forall2 (close Sz e) v V -> @opts_testing N os v = Ok o -> @opts_testing RNum ps V = Ok O ->
  Forall2 (close Sz (e + INR (List.length (filter (fun o => match o with ODropout _ _ _ => true | _ => false end) ps)) * (Sz * u24 + tiny))) o O.
Proof.
  intros HS H. unfold opts_testing. assert (U := u24_pos). assert (Tp := tiny_pos). assert (Q0 : 0 <= Sz * u24 + tiny) by nra.
  induction H as [|a b os ps Hab _ IH]; intros e v o V O He Hv H1 H2; cbn [ofold filter] in *.
  - apply Ok_inj in H1, H2. subst. cbn [List.length]. change (INR 0) with 0. rewrite Rmult_0_l, Rplus_0_r. exact Hv.
  - apply bind_Ok_inv in H1 as (v1 & E1 & H1). apply bind_Ok_inv in H2 as (V1 & E2 & H2). destruct a, b; try contradiction; cbn [opt_testing] in E1, E2; apply Ok_inj in E1, E2; subst v1 V1; try (exact (IH _ _ _ _ _ He Hv H1 H2)).
    cbn [List.length]. rewrite S_INR. cbn [twin_opt] in Hab.
    match type of Hab with fin32 ?r ?q /\ _ => assert (Hv' : Forall2 (close Sz (e + (Sz * u24 + tiny))) (map (fun x => @fmul N x r) v) (map (fun x => @fmul RNum x q) V)) end.
    { destruct Hab as (Hr & Hq). clear -Hv HS He Hr Hq. induction Hv; cbn [map]; constructor; auto. apply scale_close; auto. }
    assert (Pe : 0 <= e + (Sz * u24 + tiny)) by lra; assert (G := IH _ _ _ _ _ Pe Hv' H1 H2). match goal with |- Forall2 (close _ ?z) _ _ => match type of G with Forall2 (close _ ?y) _ _ => replace z with y by ring end end. exact G.
Qed.
Lemma next_size_ge nn A B m : 0 <= A -> 1 <= B -> 1 <= next_size nn A B m.
Proof. intros H0 H. unfold next_size. destruct (flat_layer m); [lra|]. destruct (pooling m); [exact H|apply Rmax_l]. Qed.
Lemma base_error_pos nn A B d m : 0 <= A -> 1 <= B -> 0 <= d -> 0 <= base_error nn A B d m.
Proof. intros H0 H H1. unfold base_error. destruct (pooling m); [exact H1|]. assert (U := u24_pos). assert (D := delta_pos expf tanhf delta HA). assert (T0 : 0 <= A * B) by (apply Rmult_le_pos; lra). assert (Q := sum_error_pos nn _ T0). assert (0 <= A * d) by (apply Rmult_le_pos; lra). lra. Qed.
Lemma layer_close nn A B d (l l' : @Layer N) (m m' : @Layer RNum) (x o : list f32) (X O : list R) reset : (Z.of_nat nn <= 2 ^ 22)%Z -> 0 <= A -> 1 <= B -> 0 <= d -> A * B <= bpow radix2 120 ->
  twin_layer expf tanhf l m -> limited nn A m -> Forall2 (close B d) x X -> @layer_output N l x reset = Ok (o, l') -> @layer_output RNum m X reset = Ok (O, m') ->
  Forall2 (close (next_size nn A B m) (next_error delta nn A B d m)) o O.
Proof.
  intros H1 H2 H3 H4 H5 (Tb & To) Hl Hx Hr HR. unfold layer_output in Hr, HR. apply bind_Ok_inv in Hr as ([o1 b1] & E1 & Hr). apply bind_Ok_inv in Hr as (o2 & F1 & Hr). apply bind_Ok_inv in HR as ([O1 c1] & E2 & HR). apply bind_Ok_inv in HR as (O2 & F2 & HR).
  apply pair_inj in Hr as (-> & _). apply pair_inj in HR as (-> & _). destruct m as [im c ps]. cbn [l_body l_opts] in *. assert (Bc := body_close nn A B d _ _ _ _ im ps _ _ _ _ _ H1 H2 H3 H4 H5 Tb Hl Hx E1 E2).
  assert (S1 := next_size_ge nn A B (@mkLayer RNum im c ps) H2 H3). assert (S0 : 0 <= next_size nn A B (@mkLayer RNum im c ps)) by lra; exact (opts_close _ _ _ S0 To _ _ _ _ _ (base_error_pos _ _ _ _ _ H2 H3 H4) Bc F1 F2).
Qed.
Lemma next_error_pos nn A B d m : 0 <= A -> 1 <= B -> 0 <= d -> 0 <= next_error delta nn A B d m.
Proof.
  intros H0 H H1. change (0 <= base_error nn A B d m + INR (dropouts m) * (next_size nn A B m * u24 + tiny)). assert (U := u24_pos). assert (Tp := tiny_pos). assert (P := base_error_pos nn A B d m H0 H H1). assert (S1 := next_size_ge nn A B m H0 H). assert (I := pos_INR (dropouts m)).
  assert (0 <= INR (dropouts m) * (next_size nn A B m * u24 + tiny)) by (apply Rmult_le_pos; nra). lra.
Qed.
Lemma chain_close reset : forall (bounds : list (nat * R)) (ls : list (@Layer N)) (ms : list (@Layer RNum)) B d i (x o : list f32) (X O : list R) ls' ms', 1 <= B -> 0 <= d -> Forall2 (twin_layer expf tanhf) ls ms -> bounded_net bounds ms B ->
  Forall2 (close B d) x X -> @chain N (fun _ l v => @layer_output N l v reset) i ls x = Ok (o, ls') -> @chain RNum (fun _ l v => @layer_output RNum l v reset) i ms X = Ok (O, ms') ->
  Forall2 (near (final_error delta bounds ms B d)) o O.
Proof.
  intros bounds ls ms B d i x o X O ls' ms' HB Hd H. revert bounds B d i x o X O ls' ms' HB Hd. induction H as [|l m ls ms Hlm _ IH]; intros bounds B d i x o X O ls' ms' HB Hd Hb Hx H1 H2; cbn [chain] in H1, H2.
  - apply pair_inj in H1 as (-> & _). apply pair_inj in H2 as (-> & _). destruct bounds as [|[n A] bounds]; [|contradiction]. cbn [final_error]. clear -Hx. induction Hx as [|a b x X (v & V1 & V2 & _) _ IHx]; constructor; auto. exists v. auto.
  - destruct bounds as [|[n A] bounds]; [contradiction|]. cbn [bounded_net final_error] in *. destruct Hb as (B1 & B2 & B3 & B4 & B5 & B6).
    apply bind_Ok_inv in H1 as ([v1 l1] & E1 & H1). apply bind_Ok_inv in H1 as ([v2 t1] & F1 & H1). apply bind_Ok_inv in H2 as ([V1 m1] & E2 & H2). apply bind_Ok_inv in H2 as ([V2 t2] & F2 & H2). apply pair_inj in H1 as (-> & _). apply pair_inj in H2 as (-> & _).
    assert (C := layer_close n A B d _ _ _ _ _ _ _ _ _ B1 B2 HB Hd B4 Hlm B3 Hx E1 E2). eapply IH; [| |exact B6|exact C|exact F1|exact F2]; [now apply next_size_ge|now apply next_error_pos].
Qed.
End L.
