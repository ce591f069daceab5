(* C70: layer optimizers, layers and networks. *)
From Coq Require Import Reals Lra Lia Floats.SpecFloat.
From Flocq Require Import Core.Core IEEE754.BinarySingleNaN.
From Verif Require Import Base Num NumOrder ActModel NeuronModel LayerModel NetModel Float32 PoolProofs F1Spec F1Float SoftSpec SoftProps FiniteSpec FiniteProofs FiniteLayers.
Local Open Scope R_scope.
Local Open Scope outcome_scope.

Section L.
Variables expf tanhf : f32 -> f32.
Notation N := (Num32 expf tanhf).
Hypothesis HM : good_math expf tanhf.
Variables w k : Z.
Hypothesis Hw : (0 <= w)%Z.
Hypothesis Hk : (1 <= k <= 23)%Z.
Notation qb := (quiet_body expf tanhf w k).
Notation qo := (quiet_opt expf tanhf).
Notation ql := (quiet_layer expf tanhf w k).
Notation nx := (next expf tanhf w k).

Lemma calm_all (ns : list (@Neuron N)) : Forall (quiet_neuron expf tanhf w k) ns -> Forall (calm_n expf tanhf w k (forallb (fun n => bounded_act (@n_act N n)) ns)) ns.
Proof.
  intros H. rewrite Forall_forall in *. intros n Hn. split; [auto|]. intros A. rewrite forallb_forall in A. auto.
Qed.
Lemma calm_quiet all (ns : list (@Neuron N)) : Forall (calm_n expf tanhf w k all) ns -> Forall (quiet_neuron expf tanhf w k) ns.
Proof. apply Forall_impl. now intros n (Q & _). Qed.
Lemma map_length_eq {A B} (g : A -> B) l l' : map g l' = map g l -> List.length l' = List.length l.
Proof. intros E. apply (f_equal (@List.length B)) in E. now rewrite !map_length in E. Qed.

Lemma body_within (b b' : @Body N) i os (x o : list f32) e reset : (0 <= e)%Z -> (e + (w + k) <= 125)%Z -> qb b -> Forall (within (two_to e)) x -> @body_output N b x reset = Ok (o, b') ->
  Forall (within (two_to (nx e (@mkLayer N i b os)))) o /\ qb b' /\ (forall e' os', nx e' (@mkLayer N i b' os') = nx e' (@mkLayer N i b os)) /\ outputs_of expf tanhf b' = outputs_of expf tanhf b /\ List.length o = outputs_of expf tanhf b.
Proof.
  intros He H Hq Hx Hr. destruct b as [ns|ns|ns|kd f ns]; cbn [body_output] in Hr.
  - apply bind_Ok_inv in Hr as ([o1 n1] & He1 & Hr). assert (E : o = o1 /\ b' = BFull n1) by (split; congruence). destruct E as (-> & ->).
    destruct (each_all (fun _ n => @simple_output N n x) (calm_n expf tanhf w k _) (small_out w k _ e) (@n_act N) (fun _ a b a' Pa Hb => simple_all expf tanhf HM w k Hw Hk _ a a' x e b He H Pa Hx Hb) _ _ _ _ (calm_all _ Hq) He1) as (S1 & S2 & S3 & S4).
    unfold next. cbn [quiet_body l_body outputs_of]. split; [exact S1|]. split; [eapply calm_quiet; exact S2|]. split; [intros; now rewrite (forallb_acts expf tanhf ns n1 S3)|]. split; [now apply map_length_eq in S3|exact S4].
  - apply bind_Ok_inv in Hr as ([o1 n1] & He1 & Hr). assert (E : o = o1 /\ b' = BRec n1) by (split; congruence). destruct E as (-> & ->).
    destruct (each_all (fun _ n => @rec_output N n x reset) (quiet_rec expf tanhf w k) (within 1) (fun _ => tt)) with (l := ns) (i := 0%nat) (os := o1) (l' := n1) as (S1 & S2 & S3 & S4); auto.
    { intros j a b a' Pa Hb. destruct (rec_within expf tanhf HM w k Hw Hk _ _ _ _ _ _ He H Pa Hx Hb) as (A & B & _). auto. }
    unfold next. cbn [quiet_body l_body outputs_of]. split; [exact S1|]. split; [exact S2|]. split; [reflexivity|]. split; [now apply map_length_eq in S3|exact S4].
  - apply bind_Ok_inv in Hr as ([o1 n1] & He1 & Hr). assert (E : o = o1 /\ b' = BGru n1) by (split; congruence). destruct E as (-> & ->).
    destruct (each_all (fun _ n => @gru_output N n x reset) (quiet_gru expf tanhf w k) (within 1) (fun _ => tt)) with (l := ns) (i := 0%nat) (os := o1) (l' := n1) as (S1 & S2 & S3 & S4); auto.
    { intros j a b a' Pa Hb. destruct (gru_within expf tanhf HM w k Hw Hk _ _ _ _ _ _ He H Pa Hx Hb) as (A & B). auto. }
    unfold next. cbn [quiet_body l_body outputs_of]. split; [exact S1|]. split; [exact S2|]. split; [reflexivity|]. split; [now apply map_length_eq in S3|exact S4].
  - assert (C : forall o1 n1, Forall (small_out w k (forallb (fun n => bounded_act (@n_act N n)) ns) e) o1 /\ Forall (calm_n expf tanhf w k (forallb (fun n => bounded_act (@n_act N n)) ns)) n1 /\ map (@n_act N) n1 = map (@n_act N) ns /\ List.length o1 = f_kernels f -> Ok (o1, BFilter kd f n1) = Ok (o, b') -> kd <> Pool1D -> kd <> Pool2D ->
      Forall (within (two_to (nx e (@mkLayer N i (BFilter kd f ns) os)))) o /\ qb b' /\ (forall e' os', nx e' (@mkLayer N i b' os') = nx e' (@mkLayer N i (BFilter kd f ns) os)) /\ outputs_of expf tanhf b' = outputs_of expf tanhf (BFilter kd f ns) /\ List.length o = outputs_of expf tanhf (BFilter kd f ns)).
    { intros o1 n1 (S1 & S2 & S3 & S4) G K1 K2. assert (E : o = o1 /\ b' = BFilter kd f n1) by (split; congruence). destruct E as (-> & ->).
      unfold next. cbn [quiet_body l_body outputs_of]. split; [destruct kd; congruence || exact S1|]. split; [eapply calm_quiet; exact S2|]. split; [intros; now rewrite (forallb_acts expf tanhf ns n1 S3)|]. auto. }
    assert (C2 : forall o1 f1, Forall (within (two_to e)) o1 /\ List.length o1 = f_kernels f /\ f_kernels f1 = f_kernels f -> Ok (o1, BFilter kd f1 ns) = Ok (o, b') -> kd = Pool1D \/ kd = Pool2D ->
      Forall (within (two_to (nx e (@mkLayer N i (BFilter kd f ns) os)))) o /\ qb b' /\ (forall e' os', nx e' (@mkLayer N i b' os') = nx e' (@mkLayer N i (BFilter kd f ns) os)) /\ outputs_of expf tanhf b' = outputs_of expf tanhf (BFilter kd f ns) /\ List.length o = outputs_of expf tanhf (BFilter kd f ns)).
    { intros o1 f1 (S1 & S2 & S3) G K. assert (E : o = o1 /\ b' = BFilter kd f1 ns) by (split; congruence). destruct E as (-> & ->).
      unfold next. cbn [quiet_body l_body outputs_of]. split; [destruct K as [-> | ->]; exact S1|]. split; [exact Hq|]. split; [reflexivity|]. auto. }
    destruct kd; apply bind_Ok_inv in Hr as ([o1 n1] & He1 & Hr);
    try (eapply C; [|exact Hr|discriminate|discriminate]; first [apply (conv_all expf tanhf HM w k Hw Hk) with (1 := He) (2 := H) (3 := calm_all _ Hq) (4 := Hx) (5 := He1)|apply (loc_all expf tanhf HM w k Hw Hk) with (1 := He) (2 := H) (3 := calm_all _ Hq) (4 := Hx) (5 := He1)]);
    (eapply C2; [eapply (pool_all expf tanhf); eassumption|exact Hr|auto]).
Qed.

(* ---------- layer optimizers ---------- *)
Lemma realise b (v : list f32) : Forall (within b) v -> exists vs, Forall2 fin32 v vs /\ Forall (fun a => Rabs a <= b) vs.
Proof.
  induction 1 as [|x v (r & Hr & Br) _ (vs & H1 & H2)]; [exists []; split; constructor|]. exists (r :: vs). split; now constructor.
Qed.
Lemma softmax_within (v o : list f32) m : (m <= 126)%Z -> (0 <= m)%Z -> (Z.of_nat (List.length v) <= 2 ^ 24)%Z -> Forall (within (two_to m)) v -> @computeSoftmax N v = Ok o -> Forall (within 1) o /\ List.length o = List.length v.
Proof.
  intros Hm H0 Hn Hv Hr. assert (V : v <> []) by (intros ->; discriminate Hr). destruct (realise _ _ Hv) as (vs & V1 & V2).
  destruct (C34_softmax_float_partial expf tanhf (math_sound _ _ HM) v vs V Hn) as (o' & rs & E & R1 & R2 & R3 & _).
  { split; [exact V1|]. eapply Forall_impl; [|exact V2]. intros a Ha. cbv beta in *. eapply Rle_trans; [exact Ha|]. apply bpow_le. lia. }
  assert (o' = o) as -> by (apply Ok_inj; exact (eq_trans (eq_sym E) Hr)). split; [|exact R2]. clear -R1 R3. induction R1 as [|x r xs rs Hx _ IH]; constructor.
  - exists r. split; [exact Hx|]. apply Rabs_le. specialize (R3 r (or_introl eq_refl)). lra.
  - apply IH. intros q Hq. apply R3. now right.
Qed.
Lemma mulMask_within (v : list f32) mask m : (0 <= m <= 126)%Z -> Forall (within (two_to m)) v -> Forall (within (two_to m)) (@mulMask N v mask) /\ List.length (@mulMask N v mask) = List.length v.
Proof.
  intros Hm. revert mask. induction v as [|x v IH]; intros mask Hv.
  - unfold mulMask. destruct mask; cbn; split; auto.
  - inversion Hv as [|? ? Hx Hv']; subst. destruct mask as [|b mask]; [unfold mulMask; cbn; auto|]. destruct (IH mask Hv') as (I1 & I2).
    assert (E : @mulMask N (x :: v) (b :: mask) = @fmul N x (@b2f N b) :: @mulMask N v mask) by reflexivity. rewrite E. split; [constructor; [|exact I1]|cbn [List.length]; f_equal; exact I2].
    replace m with (m + 0)%Z by lia. apply (within_fmul expf tanhf); [exact Hx| |lia]. destruct b; cbn [b2f].
    + exact (within_int expf tanhf 1 ltac:(cbn; lia)).
    + apply (within_zero expf tanhf). change (two_to 0) with 1. lra.
Qed.
Definition room (os : list (@LOpt N)) (n : nat) : Prop := In (@OSoftmax N) os -> (Z.of_nat n <= 2 ^ 24)%Z.
Lemma one_le m (v : list f32) : (0 <= m)%Z -> Forall (within 1) v -> Forall (within (two_to m)) v.
Proof. intros Hm. apply Forall_impl. intros x Hx. eapply within_le; [exact Hx|]. now apply bpow_ge1. Qed.
Lemma testing_within (os : list (@LOpt N)) m : (0 <= m <= 126)%Z -> forall v o, Forall qo os -> room os (List.length v) -> Forall (within (two_to m)) v -> @opts_testing N os v = Ok o -> Forall (within (two_to m)) o.
Proof.
  intros Hm. unfold opts_testing. induction os as [|a os IH]; intros v o Hq Hs Hv Hr; cbn [ofold] in Hr; [apply Ok_inj in Hr; now rewrite <- Hr|].
  apply bind_Ok_inv in Hr as (v1 & H1 & Hr). inversion Hq as [|? ? Qa Qt]; subst.
  assert (G : Forall (within (two_to m)) v1 /\ List.length v1 = List.length v).
  { destruct a; cbn [opt_testing] in H1.
    - apply Ok_inj in H1. rewrite <- H1. split; [|now rewrite map_length]. apply Forall_map. eapply Forall_impl; [|exact Hv]. intros x Hx. replace m with (m + 0)%Z by lia. apply (within_fmul expf tanhf); [exact Hx|exact Qa|lia].
    - apply Ok_inj in H1. rewrite <- H1. auto.
    - apply Ok_inj in H1. rewrite <- H1. auto.
    - apply Ok_inj in H1. rewrite <- H1. auto.
    - destruct (softmax_within v v1 m) as (A & B); auto; try lia. { apply Hs. now left. } split; [apply one_le; auto; lia|exact B]. }
  destruct G as (G1 & G2). eapply IH; try exact Hr; auto. intros Hi. specialize (Hs (or_intror Hi)). change (@F N) with f32 in *. lia.
Qed.
Lemma training_within (rand : nat -> nat -> bool) reset (os : list (@LOpt N)) m : (0 <= m <= 126)%Z -> forall i v o os', Forall qo os -> room os (List.length v) -> Forall (within (two_to m)) v -> @opts_training N rand reset i os v = Ok (o, os') ->
  Forall (within (two_to m)) o /\ Forall qo os' /\ (In (@OSoftmax N) os' -> In (@OSoftmax N) os).
Proof.
  intros Hm. induction os as [|a os IH]; intros i v o os' Hq Hs Hv Hr; cbn [opts_training] in Hr.
  - assert (E : o = v /\ os' = []) by (split; congruence). destruct E as (-> & ->). auto.
  - apply bind_Ok_inv in Hr as ([v1 a1] & H1 & Hr). apply bind_Ok_inv in Hr as ([v2 t1] & H2 & Hr). assert (E : o = v2 /\ os' = a1 :: t1) by (split; congruence). destruct E as (-> & ->). inversion Hq as [|? ? Qa Qt]; subst.
    assert (G : Forall (within (two_to m)) v1 /\ List.length v1 = List.length v /\ qo a1 /\ (a1 = @OSoftmax N -> a = @OSoftmax N)).
    { destruct a; cbn [opt_training] in H1.
      - match type of H1 with Ok (?p, ?q) = _ => assert (E : v1 = p /\ a1 = q) by (split; congruence) end. destruct E as (-> & ->). destruct (mulMask_within v (if reset then map (rand i) (seq 0 (List.length presence)) else presence) m Hm Hv) as (A & B). repeat split; auto. discriminate.
      - assert (E : v1 = v /\ a1 = OL1 value) by (split; congruence). destruct E as (-> & ->). auto.
      - assert (E : v1 = v /\ a1 = OL2 value) by (split; congruence). destruct E as (-> & ->). auto.
      - assert (E : v1 = v /\ a1 = OMult factor) by (split; congruence). destruct E as (-> & ->). auto.
      - apply bind_Ok_inv in H1 as (z & Hz & H1). assert (E : v1 = z /\ a1 = OSoftmax) by (split; congruence). destruct E as (-> & ->). destruct (softmax_within v z m) as (A & B); auto; try lia. { apply Hs. now left. } repeat split; auto. apply one_le; auto; lia. }
    destruct G as (G1 & G2 & G3 & G4). assert (Rm : room os (List.length v1)) by (intros Hi; specialize (Hs (or_intror Hi)); change (@F N) with f32 in *; lia).
    destruct (IH _ _ _ _ Qt Rm G1 H2) as (J1 & J2 & J3).
    split; [exact J1|]. split; [now constructor|]. intros [Ha|Ht]; [left; now apply G4|right; auto].
Qed.
(* ---------- layers ---------- *)
Lemma next_range e (l : @Layer N) : (0 <= e)%Z -> (e + (w + k) <= 125)%Z -> (0 <= nx e l <= 125)%Z.
Proof. intros He H. unfold next. destruct (l_body l) as [ns|ns|ns|[] f ns]; try destruct (forallb _ ns); lia. Qed.
Lemma layer_within (l l' : @Layer N) (x o : list f32) e reset : (0 <= e)%Z -> (e + (w + k) <= 125)%Z -> ql l -> Forall (within (two_to e)) x -> @layer_output N l x reset = Ok (o, l') ->
  Forall (within (two_to (nx e l))) o /\ ql l' /\ (forall e', nx e' l' = nx e' l).
Proof.
  intros He H (Q1 & Q2 & Q3) Hx Hr. destruct l as [i b os]. cbn [l_body l_opts] in *. unfold layer_output in Hr. cbn [l_body l_opts l_in] in Hr.
  apply bind_Ok_inv in Hr as ([o1 b1] & H1 & Hr). apply bind_Ok_inv in Hr as (o2 & H2 & Hr). assert (E : o = o2 /\ l' = @mkLayer N i b1 os) by (split; congruence). destruct E as (-> & ->).
  destruct (body_within _ _ i os _ _ _ _ He H Q1 Hx H1) as (B1 & B2 & B3 & B4 & B5). assert (Rg := next_range e (@mkLayer N i b os) He H).
  split; [eapply testing_within; [|exact Q2| |exact B1|exact H2]; [lia|]|].
  - intros Hi. rewrite B5. auto.
  - split; [|intros e'; apply B3]. split; [exact B2|]. split; [exact Q2|]. cbn [l_body l_opts]. rewrite B4. exact Q3.
Qed.
Lemma layer_training_within rand (l l' : @Layer N) (x o : list f32) e reset : (0 <= e)%Z -> (e + (w + k) <= 125)%Z -> ql l -> Forall (within (two_to e)) x -> @layer_outputForTraining N rand l x reset = Ok (o, l') ->
  Forall (within (two_to (nx e l))) o /\ ql l' /\ (forall e', nx e' l' = nx e' l).
Proof.
  intros He H (Q1 & Q2 & Q3) Hx Hr. destruct l as [i b os]. cbn [l_body l_opts] in *. unfold layer_outputForTraining in Hr. cbn [l_body l_opts l_in] in Hr.
  apply bind_Ok_inv in Hr as ([o1 b1] & H1 & Hr). apply bind_Ok_inv in Hr as ([o2 os2] & H2 & Hr). assert (E : o = o2 /\ l' = @mkLayer N i b1 os2) by (split; congruence). destruct E as (-> & ->).
  destruct (body_within _ _ i os _ _ _ _ He H Q1 Hx H1) as (B1 & B2 & B3 & B4 & B5). assert (Rg := next_range e (@mkLayer N i b os) He H).
  assert (Rm : room os (List.length o1)) by (intros Hi; specialize (Q3 Hi); change (@F N) with f32 in *; lia).
  destruct (training_within rand reset os (nx e (@mkLayer N i b os)) ltac:(lia) _ _ _ _ Q2 Rm B1 H2) as (T1 & T2 & T3).
  - split; [exact T1|]. split; [|intros e'; apply B3]. split; [exact B2|]. split; [exact T2|]. cbn [l_body l_opts]. rewrite B4. auto.
Qed.
(* ---------- networks ---------- *)
Lemma chain_within (f : nat -> @Layer N -> list f32 -> outcome (list f32 * @Layer N)) :
  (forall i l l' x o e, (0 <= e)%Z -> (e + (w + k) <= 125)%Z -> ql l -> Forall (within (two_to e)) x -> f i l x = Ok (o, l') -> Forall (within (two_to (nx e l))) o /\ ql l' /\ (forall e', nx e' l' = nx e' l)) ->
  forall ls i x o ls' e, (0 <= e)%Z -> tame expf tanhf w k e ls -> Forall ql ls -> Forall (within (two_to e)) x -> @chain N f i ls x = Ok (o, ls') ->
  Forall (within (two_to (reach expf tanhf w k e ls))) o /\ Forall ql ls' /\ (forall e', (tame expf tanhf w k e' ls -> tame expf tanhf w k e' ls') /\ reach expf tanhf w k e' ls' = reach expf tanhf w k e' ls).
Proof.
  intros Hf. induction ls as [|l ls IH]; intros i x o ls' e He Ht Hq Hx Hr; cbn [chain] in Hr.
  - assert (E : o = x /\ ls' = []) by (split; congruence). destruct E as (-> & ->). cbn [reach]. auto.
  - apply bind_Ok_inv in Hr as ([v1 l1] & H1 & Hr). apply bind_Ok_inv in Hr as ([v2 t1] & H2 & Hr). assert (E : o = v2 /\ ls' = l1 :: t1) by (split; congruence). destruct E as (-> & ->). inversion Hq as [|? ? Ql Qt]; subst.
    destruct Ht as (Ht1 & Ht2). destruct (Hf _ _ _ _ _ _ He Ht1 Ql Hx H1) as (A1 & A2 & A3). assert (Rg := next_range e l He Ht1).
    destruct (IH _ _ _ _ (nx e l) ltac:(lia) Ht2 Qt A1 H2) as (J1 & J2 & J3). cbn [reach tame]. split; [exact J1|]. split; [now constructor|]. intros e'. rewrite A3. destruct (J3 (nx e' l)) as (K1 & K2). split; [|exact K2]. intros (T1 & T2). auto.
Qed.
End L.
