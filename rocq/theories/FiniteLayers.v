(* C70: neurons, layer optimizers and layers. *)
From Coq Require Import Reals Lra Lia Floats.SpecFloat.
From Flocq Require Import Core.Core IEEE754.BinarySingleNaN.
From Verif Require Import Base Num NumOrder ActModel NeuronModel LayerModel NetModel Float32 PoolProofs F1Spec F1Float SoftSpec SoftProps FiniteSpec FiniteProofs.
Local Open Scope R_scope.
Local Open Scope outcome_scope.

Section L.
Variables expf tanhf : f32 -> f32.
Notation N := (Num32 expf tanhf).
Hypothesis HM : good_math expf tanhf.
Variables w k : Z.
Hypothesis Hw : (0 <= w)%Z.
Hypothesis Hk : (1 <= k <= 23)%Z.
Notation qn := (quiet_neuron expf tanhf w k).
Notation qr := (quiet_rec expf tanhf w k).
Notation qg := (quiet_gru expf tanhf w k).

Lemma lget_In {A} (l : list A) i a : lget l i = Ok a -> In a l.
Proof. unfold lget. destruct (nth_error l i) eqn:E; [|discriminate]. intros [= <-]. eapply nth_error_In; eauto. Qed.
Lemma lget_lt {A} (l : list A) i a : lget l i = Ok a -> (i < List.length l)%nat.
Proof. unfold lget. destruct (nth_error l i) eqn:E; [|discriminate]. intros _. apply nth_error_Some. congruence. Qed.
Lemma count_bound c e : (0 <= c <= 2 ^ k)%Z -> (0 <= e)%Z -> (e + k <= 126)%Z -> fmt (IZR c * two_to e) /\ IZR c * two_to e <= two_to (e + k) /\ IZR c * two_to e < bpow radix2 128.
Proof.
  intros Hc He H. assert (P : (2 ^ k <= 2 ^ 23)%Z) by (apply Z.pow_le_mono_r; lia). assert (B : IZR c * two_to e <= two_to (e + k)).
  { rewrite Z.add_comm, bpow_plus. apply Rmult_le_compat_r; [apply bpow_ge_0|]. rewrite <- (IZR_Zpower radix2) by lia. apply IZR_le. cbn [radix_val radix2]. lia. }
  split; [apply fmt_times; lia|]. split; [exact B|]. eapply Rle_lt_trans; [exact B|]. apply bpow_lt. lia.
Qed.
(* one more term of a sum *)
Lemma add_term c e s t : (0 <= c)%Z -> (c + 1 <= 2 ^ k)%Z -> (0 <= e)%Z -> (e + k <= 126)%Z -> within (IZR c * two_to e) s -> within (two_to e) t -> within (IZR (c + 1) * two_to e) (@fadd N s t).
Proof.
  intros Hc Hc1 He H Hs Ht. destruct (count_bound (c + 1) e) as (F1 & F2 & F3); try lia. eapply (within_add expf tanhf); [exact Hs|exact Ht| |exact F1|exact F3]. rewrite plus_IZR. lra.
Qed.
Lemma weighted_fold (x a : list f32) e : (0 <= e)%Z -> (w + e + k <= 126)%Z -> Forall (within (two_to e)) x -> Forall (within (two_to w)) a -> forall l c s0 s,
  (0 <= c)%Z -> (c + Z.of_nat (List.length l) <= 2 ^ k)%Z -> within (IZR c * two_to (w + e)) s0 ->
  ofold (fun tmp i => let* p := lget x i in let* q := lget a i in Ok (@fadd N tmp (@fmul N p q))) l s0 = Ok s -> within (IZR (c + Z.of_nat (List.length l)) * two_to (w + e)) s.
Proof.
  intros He H Hx Ha. induction l as [|i l IH]; intros c s0 s Hc Hn Hs Hr; cbn [ofold List.length] in *.
  - injection Hr as <-. now rewrite Z.add_0_r.
  - apply bind_Ok_inv in Hr as (s1 & Hr1 & Hr). apply bind_Ok_inv in Hr1 as (p & Hp & Hr1). apply bind_Ok_inv in Hr1 as (q & Hq & Hr1). injection Hr1 as <-.
    apply lget_In in Hp, Hq. rewrite Forall_forall in Hx, Ha. assert (M : within (two_to (w + e)) (@fmul N p q)). { rewrite Z.add_comm. apply (within_fmul expf tanhf); [now apply Hx|now apply Ha|lia]. }
    replace (c + Z.of_nat (S (List.length l)))%Z with ((c + 1) + Z.of_nat (List.length l))%Z by lia. eapply IH; try exact Hr; try lia. apply add_term; auto; lia.
Qed.
Lemma weighted_within (x a : list f32) e s : (0 <= e)%Z -> (w + e + k <= 126)%Z -> Forall (within (two_to e)) x -> Forall (within (two_to w)) a -> (Z.of_nat (List.length x) <= 2 ^ k)%Z ->
  @weighted N x a = Ok s -> within (IZR (Z.of_nat (List.length x)) * two_to (w + e)) s.
Proof.
  intros He H Hx Ha Hn Hr. unfold weighted in Hr. change (@F N) with f32 in *. pose proof (weighted_fold x a e He H Hx Ha (seq 0 (List.length x)) 0 (@fzero N) s) as Q. rewrite seq_length in Q. rewrite Z.add_0_l in Q.
  apply Q; auto; try lia. rewrite Rmult_0_l. apply (within_zero expf tanhf). lra.
Qed.

Lemma simple_within (n n' : @Neuron N) (x : list f32) e o : (0 <= e)%Z -> (e + (w + k) <= 125)%Z -> qn n -> Forall (within (two_to e)) x -> @simple_output N n x = Ok (o, n') ->
  within (two_to (if bounded_act (@n_act N n) then 0 else e + (w + k))%Z) o /\ qn n' /\ @n_act N n' = @n_act N n.
Proof.
  intros He H (Q1 & Q2 & Q3) Hx Hr. unfold simple_output in Hr. apply bind_Ok_inv in Hr as (la & _ & Hr). apply bind_Ok_inv in Hr as (tmp & Ht & Hr). apply bind_Ok_inv in Hr as (wb & Hb & Hr).
  change (@F N) with f32 in *. pose proof (lget_lt _ _ _ Hb) as L. apply lget_In in Hb. assert (Wb : within (two_to w) wb) by (rewrite Forall_forall in Q1; exact (Q1 _ Hb)).
  assert (T := weighted_within x (@n_w N n) e tmp He ltac:(lia) Hx Q1 ltac:(lia) Ht).
  assert (B : within (two_to (w + e)) (@fmul N wb (@n_bias N n))). { eapply within_le; [apply (within_fmul expf tanhf _ _ w 0); [exact Wb|exact Q3|lia]|]. apply bpow_le. lia. }
  assert (S := add_term (Z.of_nat (List.length x)) (w + e) tmp _ ltac:(lia) ltac:(lia) ltac:(lia) ltac:(lia) T B). 
  destruct (count_bound (Z.of_nat (List.length x) + 1) (w + e)) as (_ & F2 & _); try lia. apply (within_le _ (two_to (e + (w + k)))) in S; [|eapply Rle_trans; [exact F2|apply bpow_le; lia]].
  assert (E : o = @act N (@n_act N n) (@fadd N tmp (@fmul N wb (@n_bias N n))) /\ n' = @set_sum N n (@fadd N tmp (@fmul N wb (@n_bias N n))) la) by (injection Hr as <- <-; auto). destruct E as (-> & ->).
  split; [apply (act_within expf tanhf HM); [lia|exact S]|]. split; [exact (conj Q1 (conj Q2 Q3))|reflexivity].
Qed.
Lemma rec_within (r r' : @RNeuron N) (x : list f32) e reset o : (0 <= e)%Z -> (e + (w + k) <= 125)%Z -> qr r -> Forall (within (two_to e)) x -> @rec_output N r x reset = Ok (o, r') -> within 1 o /\ qr r' /\ @r_lastOut N r' = o.
Proof.
  intros He H ((Q1 & Q2 & Q3) & Qa & Ql) Hx Hr. unfold rec_output in Hr.
  assert (E0 : @r_n N (if reset then @rec_reset N r else r) = @r_n N r /\ @r_lastOut N (if reset then @rec_reset N r else r) = @r_lastOut N r) by (destruct reset; auto).
  destruct E0 as (E1 & E2). rewrite E1, E2 in Hr.
  apply bind_Ok_inv in Hr as (la & _ & Hr). apply bind_Ok_inv in Hr as (tmp & Ht & Hr). apply bind_Ok_inv in Hr as (wr & Hwr & Hr). apply bind_Ok_inv in Hr as (wb & Hb & Hr).
  change (@F N) with f32 in *. pose proof (lget_lt _ _ _ Hb) as L. apply lget_In in Hb, Hwr. assert (Wb : within (two_to w) wb) by (rewrite Forall_forall in Q1; exact (Q1 _ Hb)). assert (Wr : within (two_to w) wr) by (rewrite Forall_forall in Q1; exact (Q1 _ Hwr)).
  assert (T := weighted_within x (@n_w N (@r_n N r)) e tmp He ltac:(lia) Hx Q1 ltac:(lia) Ht).
  assert (B1 : within (two_to (w + e)) (@fmul N (@r_lastOut N r) wr)). { eapply within_le; [apply (within_fmul expf tanhf _ _ 0 w); [exact Ql|exact Wr|lia]|]. apply bpow_le. lia. }
  assert (B2 : within (two_to (w + e)) (@fmul N (@n_bias N (@r_n N r)) wb)). { eapply within_le; [apply (within_fmul expf tanhf _ _ 0 w); [exact Q3|exact Wb|lia]|]. apply bpow_le. lia. }
  assert (S1 := add_term (Z.of_nat (List.length x)) (w + e) tmp _ ltac:(lia) ltac:(lia) ltac:(lia) ltac:(lia) T B1).
  assert (S2 := add_term (Z.of_nat (List.length x) + 1) (w + e) _ _ ltac:(lia) ltac:(lia) ltac:(lia) ltac:(lia) S1 B2).
  destruct (count_bound (Z.of_nat (List.length x) + 1 + 1) (w + e)) as (_ & F2 & _); try lia. apply (within_le _ (two_to (e + (w + k)))) in S2; [|eapply Rle_trans; [exact F2|apply bpow_le; lia]].
  assert (A := act_within expf tanhf HM (@n_act N (@r_n N r)) _ (e + (w + k))%Z ltac:(lia) S2). rewrite Qa in A. cbv zeta in Hr.
  assert (E : o = @act N (@n_act N (@r_n N r)) (@fadd N (@fadd N tmp (@fmul N (@r_lastOut N r) wr)) (@fmul N (@n_bias N (@r_n N r)) wb))) by congruence.
  assert (E' : @r_lastOut N r' = o /\ @n_w N (@r_n N r') = @n_w N (@r_n N r) /\ @n_bias N (@r_n N r') = @n_bias N (@r_n N r) /\ @n_act N (@r_n N r') = @n_act N (@r_n N r)).
  { match type of Hr with Ok (_, ?b) = Ok (_, _) => assert (G : r' = b) by congruence end. rewrite G, E. repeat split. }
  rewrite <- E in A. destruct E' as (E1' & E2' & E3' & E4'). split; [exact A|]. split; [|exact E1']. unfold quiet_rec, quiet_neuron. rewrite E1', E2', E3', E4'. exact (conj (conj Q1 (conj Q2 Q3)) (conj Qa A)).
Qed.
Lemma gru_within (g g' : @GNeuron N) (x : list f32) e reset o : (0 <= e)%Z -> (e + (w + k) <= 125)%Z -> qg g -> Forall (within (two_to e)) x -> @gru_output N g x reset = Ok (o, g') -> within 1 o /\ qg g'.
Proof.
  intros He H (Q1 & Q2 & Q3 & Q4) Hx Hr. unfold gru_output in Hr. set (g0 := if reset then @gru_reset N g else g) in *.
  assert (E0 : @g_reset N g0 = @g_reset N g /\ @g_update N g0 = @g_update N g /\ @g_output N g0 = @g_output N g /\ fin32 (@g_prevOut N g0) 0).
  { unfold g0. destruct reset; cbn [gru_reset g_reset g_update g_output g_prevOut]; repeat split; auto. apply (fin32_fofZ expf tanhf 0). lia. }
  destruct E0 as (E1 & E2 & E3 & E4). rewrite E1, E2, E3 in Hr. clearbody g0.
  apply bind_Ok_inv in Hr as ([ro rg] & R1 & Hr). apply bind_Ok_inv in Hr as ([u ug] & R2 & Hr). apply bind_Ok_inv in Hr as ([oo og] & R3 & Hr).
  destruct (rec_within _ _ _ _ _ _ He H Q1 Hx R1) as (W1 & G1 & _). destruct (rec_within _ _ _ _ _ _ He H Q2 Hx R2) as (W2 & G2 & _).
  assert (Q3' : qr (@set_lastOut N (@g_output N g) (@fmul N (@r_lastOut N (@g_output N g)) ro))).
  { destruct Q3 as (A1 & A2 & A3). split; [exact A1|]. split; [exact A2|]. cbn [set_lastOut r_lastOut]. apply (within_fmul expf tanhf _ _ 0 0); [exact A3|exact W1|lia]. }
  destruct (rec_within _ _ _ _ _ _ He H Q3' Hx R3) as (W3 & G3 & _).
  assert (Wo : within 1 (@fadd N (@fmul N (@fsub N (@fone N) u) (@g_prevOut N g0)) (@fmul N u oo))).
  { assert (A : within 0 (@fmul N (@fsub N (@fone N) u) (@g_prevOut N g0))).
    { destruct W2 as (ur & Hu & Lu). assert (D : fin32 (@fsub N (@fone N) u) (rnd (1 - ur))).
      { apply fin32_sub; [apply (fin32_fofZ expf tanhf 1); lia|exact Hu|]. assert (Rabs (rnd (1 - ur)) <= 2). { apply rnd_bound; [apply (int_format 2); lia|]. apply Rabs_le. assert (A := Rle_abs ur). assert (B := Rle_abs (- ur)). rewrite Rabs_Ropp in B. lra. } eapply Rle_lt_trans; [eassumption|]. change 2 with (bpow radix2 1). apply bpow_lt. lia. }
      exists 0. split; [|rewrite Rabs_R0; lra]. assert (Z0 : rnd (rnd (1 - ur) * 0) = 0) by (rewrite Rmult_0_r; apply (rnd_int 0); lia). rewrite <- Z0. apply fin32_mul; auto. rewrite Z0, Rabs_R0. apply bpow_gt_0. }
    eapply (within_add expf tanhf); [exact A|apply (within_fmul expf tanhf _ _ 0 0); [exact W2|exact W3|lia]|change (two_to (0 + 0)) with 1; lra|apply (int_format 1); lia|change 1 with (bpow radix2 0); apply bpow_lt; lia]. }
  match type of Hr with Ok (?a, ?b) = Ok (_, _) => assert (G : o = a /\ g' = b) by (split; congruence) end. destruct G as (-> & ->). split; [exact Wo|].
  assert (SL : forall r, qr r -> forall v, within 1 v -> qr (@set_lastOut N r v)). { intros r (A1 & A2 & A3) v Hv. split; [exact A1|]. split; [exact A2|exact Hv]. }
  split; [now apply SL|]. split; [now apply SL|]. split; [now apply SL|exact E4].
Qed.

(* ---------- lists of neurons ---------- *)
Lemma each_all {A B C} (f : nat -> A -> outcome (B * A)) (P : A -> Prop) (Q : B -> Prop) (g : A -> C) : (forall i a b a', P a -> f i a = Ok (b, a') -> Q b /\ P a' /\ g a' = g a) ->
  forall l i os l', Forall P l -> each_from f i l = Ok (os, l') -> Forall Q os /\ Forall P l' /\ map g l' = map g l /\ List.length os = List.length l.
Proof.
  intros Hf. induction l as [|a l IH]; intros i os l' HP H; cbn [each_from] in H.
  - injection H as <- <-. repeat split; constructor.
  - apply bind_Ok_inv in H as ([b a'] & H1 & H). apply bind_Ok_inv in H as ([os' l''] & H2 & H). cbn [fst snd] in H. injection H as <- <-. inversion HP as [|? ? Pa Pl]; subst.
    destruct (Hf _ _ _ _ Pa H1) as (Q1 & P1 & G1). destruct (IH _ _ _ Pl H2) as (Q2 & P2 & G2 & L2). split; [now constructor|]. split; [now constructor|]. cbn [map List.length]. split; congruence.
Qed.
Definition small_out (all : bool) (e : Z) : f32 -> Prop := within (two_to (if all then 0 else e + (w + k))%Z).
Definition calm_n (all : bool) (n : @Neuron N) : Prop := qn n /\ (all = true -> bounded_act (@n_act N n) = true).
Lemma simple_all all (n n' : @Neuron N) (x : list f32) e o : (0 <= e)%Z -> (e + (w + k) <= 125)%Z -> calm_n all n -> Forall (within (two_to e)) x -> @simple_output N n x = Ok (o, n') ->
  small_out all e o /\ calm_n all n' /\ @n_act N n' = @n_act N n.
Proof.
  intros He H (Q & A) Hx Hr. destruct (simple_within _ _ _ _ _ He H Q Hx Hr) as (W & Q' & E). split; [|split; [split; [exact Q'|now rewrite E]|exact E]].
  unfold small_out. eapply within_le; [exact W|]. apply bpow_le. destruct all; [now rewrite A by reflexivity|]. destruct (bounded_act _); lia.
Qed.
Lemma small_zero all e b : (0 <= e)%Z -> b = (@fzero N) -> small_out all e b.
Proof. intros He ->. apply (within_zero expf tanhf). apply bpow_ge_0. Qed.
Lemma omap_all {A B} (f : A -> outcome B) (Q : B -> Prop) l : forall r, (forall a b, In a l -> f a = Ok b -> Q b) -> omap f l = Ok r -> Forall Q r /\ List.length r = List.length l.
Proof.
  induction l as [|a l IH]; intros r Hf H; cbn [omap] in H; [injection H as <-; split; constructor|]. apply bind_Ok_inv in H as (b & H1 & H). apply bind_Ok_inv in H as (t & H2 & H). injection H as <-.
  destruct (IH t) as (Q2 & L2); auto. { intros. eapply Hf; eauto. now right. } split; [constructor; [eapply Hf; eauto; now left|exact Q2]|cbn; congruence].
Qed.
Lemma Ok_inj {A} (a b : A) : Ok a = Ok b -> a = b.
Proof. intros [= ->]. reflexivity. Qed.
Lemma lgetZ_In {A} (l : list A) i a : lgetZ l i = Ok a -> In a l.
Proof. unfold lgetZ. destruct (i <? 0)%Z; [discriminate|]. apply lget_In. Qed.
Lemma fill_all (Q : f32 -> Prop) n v r : Q (@fzero N) -> Forall Q v -> @fill N n v = Ok r -> Forall Q r /\ List.length r = n.
Proof.
  intros Z0 Hv. unfold fill. change (@F N) with f32 in *. destruct (Nat.leb_spec (List.length v) n); [|discriminate]. intros Hr. assert (E : r = v ++ repeat (@fzero N) (n - List.length v)) by (symmetry; exact (Ok_inj _ _ Hr)). rewrite E. split.
  - apply Forall_app. split; [exact Hv|]. apply Forall_forall. intros y Hy. apply repeat_spec in Hy. subst y. exact Z0.
  - change (@F N) with f32. rewrite app_length. rewrite (@repeat_length f32). lia.
Qed.
Lemma conv_all all (f : Filter) (ns ns' : list (@Neuron N)) (x : list f32) e o : (0 <= e)%Z -> (e + (w + k) <= 125)%Z -> Forall (calm_n all) ns -> Forall (within (two_to e)) x -> @conv_output N f ns x = Ok (o, ns') ->
  Forall (small_out all e) o /\ Forall (calm_n all) ns' /\ map (@n_act N) ns' = map (@n_act N) ns /\ List.length o = f_kernels f.
Proof.
  intros He H Hn Hx Hr. unfold conv_output in Hr. apply bind_Ok_inv in Hr as ([outs ns1] & Hr & Hr2). apply bind_Ok_inv in Hr2 as (outs2 & Hf & Hr2).
  assert (E : o = outs2 /\ ns' = ns1) by (split; congruence). destruct E as (-> & ->).
  assert (G : forall l s s', Forall (small_out all e) (fst s) -> Forall (calm_n all) (snd s) -> ofold (fun s row => let* win := @convWindow N f x row in let* (o, ns') := each (fun _ n => @simple_output N n win) (snd s) in Ok (fst s ++ o, ns')) l s = Ok s' ->
    Forall (small_out all e) (fst s') /\ Forall (calm_n all) (snd s') /\ map (@n_act N) (snd s') = map (@n_act N) (snd s)).
  { induction l as [|row l IH]; intros s s' H1 H2 H3; cbn [ofold] in H3; [injection H3 as <-; auto|]. apply bind_Ok_inv in H3 as (s1 & H3 & H4). apply bind_Ok_inv in H3 as (win & Hwin & H3). apply bind_Ok_inv in H3 as ([o1 n1] & He1 & H3). injection H3 as <-.
    assert (Ww : Forall (within (two_to e)) win). { unfold convWindow in Hwin. refine (proj1 (omap_all _ _ _ _ _ Hwin)). intros i b _ Hb. apply bind_Ok_inv in Hb as (idx & _ & Hb). apply lgetZ_In in Hb. rewrite Forall_forall in Hx. exact (Hx _ Hb). }
    destruct (each_all (fun _ n => @simple_output N n win) (calm_n all) (small_out all e) (@n_act N) (fun _ a b a' Pa Hb => simple_all all a a' win e b He H Pa Ww Hb) _ _ _ _ H2 He1) as (S1 & S2 & S3 & _).
    destruct (IH (fst s ++ o1, n1) _ (proj2 (Forall_app (small_out all e) (fst s) o1) (conj H1 S1)) S2 H4) as (T1 & T2 & T3). cbn [fst snd] in *. split; [exact T1|]. split; [exact T2|congruence]. }
  destruct (G _ ([], ns) _ (Forall_nil _) Hn Hr) as (T1 & T2 & T3). cbn [fst snd] in *. destruct (fill_all (small_out all e) _ _ _ (small_zero all e _ He eq_refl) T1 Hf) as (U1 & U2). auto.
Qed.
Lemma loc_all all (f : Filter) (ns ns' : list (@Neuron N)) (x : list f32) e o : (0 <= e)%Z -> (e + (w + k) <= 125)%Z -> Forall (calm_n all) ns -> Forall (within (two_to e)) x -> @loc_output N f ns x = Ok (o, ns') ->
  Forall (small_out all e) o /\ Forall (calm_n all) ns' /\ map (@n_act N) ns' = map (@n_act N) ns /\ List.length o = f_kernels f.
Proof.
  intros He H Hn Hx Hr. unfold loc_output in Hr. destruct (_ <? _)%nat in Hr; [discriminate|]. apply bind_Ok_inv in Hr as (wins & Hwin & Hr). apply bind_Ok_inv in Hr as ([outs ns1] & He1 & Hr). apply bind_Ok_inv in Hr as (outs2 & Hf & Hr).
  set (tot := (List.length (f_index f) * f_filters f)%nat) in *. assert (E : o = outs2 /\ ns' = ns1 ++ skipn tot ns) by (split; congruence). destruct E as (-> & ->).
  assert (Ww : Forall (Forall (within (two_to e))) wins).
  { refine (proj1 (omap_all _ _ _ _ _ Hwin)). intros row v _ Hv. unfold locWindow in Hv. refine (proj1 (omap_all _ _ _ _ _ Hv)). intros i b _ Hb. apply bind_Ok_inv in Hb as (idx & _ & Hb). destruct (0 <=? idx)%Z.
    - apply lgetZ_In in Hb. rewrite Forall_forall in Hx. exact (Hx _ Hb).
    - assert (b = @fzero N) as -> by congruence. apply (within_zero expf tanhf), bpow_ge_0. }
  assert (Hsp : Forall (calm_n all) (firstn tot ns) /\ Forall (calm_n all) (skipn tot ns)). { rewrite <- (firstn_skipn tot ns) in Hn. now apply Forall_app in Hn. } destruct Hsp as (Hn1 & Hn2).
  destruct (each_all (fun o n => let* win := lget wins (o / f_filters f) in @simple_output N n win) (calm_n all) (small_out all e) (@n_act N)) with (l := firstn tot ns) (i := 0%nat) (os := outs) (l' := ns1) as (S1 & S2 & S3 & _); auto.
  { intros i a b a' Pa Hb. apply bind_Ok_inv in Hb as (win & Hwn & Hb). apply lget_In in Hwn. rewrite Forall_forall in Ww. exact (simple_all all a a' win e b He H Pa (Ww _ Hwn) Hb). }
  destruct (fill_all (small_out all e) _ _ _ (small_zero all e _ He eq_refl) S1 Hf) as (U1 & U2). split; [exact U1|]. split; [now apply Forall_app|]. split; [|exact U2].
  rewrite map_app, S3, <- map_app, firstn_skipn. reflexivity.
Qed.
Lemma pool_all (f f' : Filter) (x : list f32) e o : Forall (within (two_to e)) x -> @pool_output N f x = Ok (o, f') -> Forall (within (two_to e)) o /\ List.length o = f_kernels f /\ f_kernels f' = f_kernels f.
Proof.
  intros Hx Hr. unfold pool_output in Hr. destruct (_ <? _)%nat in Hr; [discriminate|]. apply bind_Ok_inv in Hr as (best & _ & Hr). apply bind_Ok_inv in Hr as (outs & Ho & Hr). apply bind_Ok_inv in Hr as (outs2 & Hf & Hr).
  match type of Hr with Ok (_, ?b) = _ => assert (E : o = outs2 /\ f' = b) by (split; congruence) end. destruct E as (-> & ->).
  assert (H1 : Forall (within (two_to e)) outs). { refine (proj1 (omap_all _ _ _ _ _ Ho)). intros i b _ Hb. apply lgetZ_In in Hb. rewrite Forall_forall in Hx. exact (Hx _ Hb). }
  destruct (fill_all (within (two_to e)) _ _ _ (within_zero expf tanhf _ (bpow_ge_0 _ _)) H1 Hf) as (U1 & U2). auto.
Qed.
Lemma forallb_map_act (ns : list (@Neuron N)) : forallb bounded_act (map (@n_act N) ns) = forallb (fun n => bounded_act (@n_act N n)) ns.
Proof. induction ns as [|a t IH]; cbn; [reflexivity|now rewrite IH]. Qed.
Lemma forallb_acts (ns ns' : list (@Neuron N)) : map (@n_act N) ns' = map (@n_act N) ns -> forallb (fun n => bounded_act (@n_act N n)) ns' = forallb (fun n => bounded_act (@n_act N n)) ns.
Proof.
  intros E. rewrite <- (forallb_map_act ns), <- (forallb_map_act ns'). now rewrite E.
Qed.
End L.
