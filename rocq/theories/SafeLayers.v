(* Memory safety of whole layers and networks. *)
From Verif Require Import Base Num ActModel NeuronModel LayerModel NetModel NeuronProofs LayerProofs SafeProofs.
Local Open Scope nat_scope.

Lemma each_keeps {A B C} (f : nat -> A -> outcome (B * A)) (g : A -> C) l bs l' :
  (forall j a b a', f j a = Ok (b, a') -> g a' = g a) -> each f l = Ok (bs, l') -> map g l' = map g l.
Proof.
  intros H E. apply each_inv in E as (_ & L & Hj). apply nth_error_ext. intros i. rewrite !nth_error_map.
  destruct (nth_error l i) as [a|] eqn:Ea.
  - destruct (Hj i a Ea) as (b & a' & _ & -> & Ef). cbn. f_equal. eauto.
  - apply nth_error_None in Ea. assert (Hn : nth_error l' i = None) by (apply nth_error_None; lia). rewrite Hn. reflexivity.
Qed.
Lemma ofold_all {A S} (f : S -> A -> outcome S) (Q : S -> Prop) l : forall s, Q s ->
  (forall s a, Q s -> In a l -> exists s', f s a = Ok s' /\ Q s') -> exists s', ofold f l s = Ok s' /\ Q s'.
Proof.
  induction l as [|a t IH]; intros s Hs H; cbn; eauto.
  destruct (H s a Hs ltac:(now left)) as (s' & E & Hs'). rewrite E. cbn. apply IH; auto. intros; apply H; auto. now right.
Qed.
Lemma omap_all {A B} (f : A -> outcome B) (P : B -> Prop) l : (forall a, In a l -> exists b, f a = Ok b /\ P b) ->
  exists r, omap f l = Ok r /\ List.length r = List.length l /\ Forall P r.
Proof.
  induction l as [|a t IH]; intros H; cbn; eauto.
  destruct (H a ltac:(now left)) as (b & E & Hb). rewrite E. cbn. destruct IH as (r & E' & L & HF); [intros; apply H; now right|].
  rewrite E'. cbn. exists (b :: r). split; [reflexivity|]. split; [cbn; lia|]. now constructor.
Qed.
Lemma lset_ok {A} (l : list A) i x : i < List.length l -> lset l i x = Ok (replace l i x).
Proof. intros H. apply lset_Ok. auto. Qed.
Lemma lsetZ_ok {A} (l : list A) i x : (0 <= i < Z.of_nat (List.length l))%Z -> lsetZ l i x = Ok (replace l (Z.to_nat i) x).
Proof. intros H. unfold lsetZ. destruct (Z.ltb_spec i 0); [lia|]. apply lset_ok. lia. Qed.

Lemma firstn_snoc {A} (l : list A) m d : m < List.length l -> firstn (S m) l = firstn m l ++ [nth m l d].
Proof. revert l; induction m as [|m IH]; intros [|a t] H; cbn in H |- *; try lia; auto. cbn in IH. now rewrite IH by lia. Qed.

Section P.
Context {N : Num}.

(* ---------- forward ---------- *)
Lemma rows_in lo k nin rows row : rowsOK lo k nin rows -> In row rows -> List.length row = nin /\ Forall (fun i => lo <= i < Z.of_nat k)%Z row.
Proof. intros H Hin. unfold rowsOK in H. rewrite Forall_forall in H. auto. Qed.

Lemma conv_output_wf k f ns x m : rowsOK 0 k (f_nin f) (f_index f) -> m = List.length (f_index f) * List.length ns -> f_kernels f = m ->
  Forall (wf_plain (f_nin f)) ns -> List.length x = k ->
  exists o ns', conv_output f ns x = Ok (o, ns') /\ List.length o = m /\ Forall (wf_plain (f_nin f)) ns' /\ map n_w ns' = map n_w ns.
Proof.
  intros HR Hm Hk Hw Hx. unfold conv_output.
  match goal with |- context [ofold ?f0 _ _] => set (step := f0) end.
  assert (G : forall rows, rowsOK 0 k (f_nin f) rows -> forall outs ns0, Forall (wf_plain (f_nin f)) ns0 -> List.length ns0 = List.length ns -> map n_w ns0 = map n_w ns ->
    exists o ns', ofold step rows (outs, ns0) = Ok (o, ns') /\ List.length o = List.length outs + List.length rows * List.length ns /\
       Forall (wf_plain (f_nin f)) ns' /\ map n_w ns' = map n_w ns).
  { induction rows as [|row t IH]; intros Hrows outs ns0 H0 L0 M0; cbn [ofold].
    - exists outs, ns0. cbn. rewrite Nat.add_0_r. auto.
    - inversion Hrows as [|? ? [Hl Hf] Ht]; subst. unfold step at 1. cbn [fst snd].
      rewrite (convWindow_ok f (List.length x) x row Hl Hf eq_refl). cbn [bind].
      destruct (each_wf (fun _ n => simple_output n (map (fun i => nth (Z.to_nat i) x fzero) row)) (wf_plain (f_nin f)) (fun _ => True) ns0) as (bs & ns1 & E & L1 & L2 & F1 & _).
      { intros j a Ha. destruct (simple_output_wf (f_nin f) a (map (fun i => nth (Z.to_nat i) x fzero) row)) as (v & n' & E & W & _); eauto.
        - eapply Forall_nth_error; eauto. - now rewrite map_length. }
      rewrite E. cbn [bind]. destruct (IH Ht (outs ++ bs) ns1 F1) as (o & ns' & E' & L & F' & M'); [lia| |].
      { rewrite <- M0. eapply each_keeps; [|exact E]. intros j a b a' Ea. apply simple_output_inv in Ea as (_ & ? & _ & ->). reflexivity. }
      exists o, ns'. split; [exact E'|]. rewrite app_length in L. cbn [List.length]. split; [lia|auto]. }
  destruct (G (f_index f) HR [] ns Hw eq_refl eq_refl) as (o & ns' & E & L & F' & M'). rewrite E. cbn [bind].
  cbn in L. rewrite fill_ok by lia. cbn. eexists _, _. repeat split; eauto; lia.
Qed.
Lemma loc_output_wf k f ns x m : rowsOK (-1) k (f_nin f) (f_index f) -> 0 < f_filters f -> m = List.length (f_index f) * f_filters f -> f_kernels f = m -> m = List.length ns ->
  Forall (wf_plain (f_nin f)) ns -> List.length x = k ->
  exists o ns', loc_output f ns x = Ok (o, ns') /\ List.length o = m /\ Forall (wf_plain (f_nin f)) ns' /\ map n_w ns' = map n_w ns.
Proof.
  intros HR Hf Hm Hk Hn Hw Hx. unfold loc_output. cbv zeta. rewrite <- Hm. destruct (Nat.ltb_spec (List.length ns) m); [lia|].
  destruct (omap_all (locWindow f x) (fun w => List.length w = f_nin f) (f_index f)) as (wins & E & L & HW).
  { intros row Hin. destruct (rows_in _ _ _ _ _ HR Hin) as [Hl Hr]. rewrite (locWindow_ok f k x row Hl Hr Hx). eexists; split; [reflexivity|]. now rewrite map_length. }
  rewrite E. cbn [bind]. rewrite firstn_all2 by lia. rewrite skipn_all2 by lia.
  match goal with |- context [each ?f0 ns] => set (step := f0) end.
  destruct (each_wf step (wf_plain (f_nin f)) (fun _ => True) ns) as (bs & ns1 & E1 & L1 & L2 & F1 & _).
  { intros j a Ha. unfold step. assert (j < List.length ns) by (apply nth_error_Some; congruence).
    assert (j / f_filters f < List.length (f_index f)) by (apply Nat.div_lt_upper_bound; lia).
    rewrite (lget_nth _ _ []) by lia. cbn [bind].
    destruct (simple_output_wf (f_nin f) a (nth (j / f_filters f) wins [])) as (v & n' & E' & W & _); eauto.
    - eapply Forall_nth_error; eauto.
    - rewrite Forall_forall in HW. apply HW. apply nth_In. lia. }
  rewrite E1. cbn [bind]. rewrite fill_ok by lia. cbn [bind]. eexists _, _. split; [reflexivity|]. rewrite app_nil_r. split; [lia|]. split; [auto|].
  eapply each_keeps; [|exact E1]. intros j a b a' Ea. unfold step in Ea. apply bind_Ok_inv in Ea as (w & _ & Ea). apply simple_output_inv in Ea as (_ & ? & _ & ->). reflexivity.
Qed.
(* the index a pooling window selects is one of its non-negative indexes *)
Lemma maxIndexOf_ok f k x row : List.length row = f_nin f -> Forall (fun i => -1 <= i < Z.of_nat k)%Z row -> List.length x = k ->
  (exists i, In i row /\ (0 <= i)%Z) -> exists b, maxIndexOf f x row = Ok b /\ In b row /\ (0 <= b < Z.of_nat k)%Z.
Proof.
  intros Hl Hf Hx Hex. unfold maxIndexOf. match goal with |- context [ofold ?f0 _ _] => set (step := f0) end.
  rewrite Forall_forall in Hf.
  assert (G : forall n, n <= f_nin f -> exists b, ofold step (seq 0 n) (-1)%Z = Ok b /\
     ((b = -1)%Z /\ Forall (fun i => (i < 0)%Z) (firstn n row) \/ In b row /\ (0 <= b < Z.of_nat k)%Z)).
  { induction n as [|n IH]; intros Hn; [exists (-1)%Z; cbn; auto|]. destruct IH as (b & E & Hb); [lia|].
    rewrite seq_S, ofold_app, E. cbn [bind ofold plus]. unfold step at 1. rewrite (lget_nth _ _ 0%Z) by lia. cbn [bind].
    set (i := nth n row 0%Z). assert (Hi : In i row) by (apply nth_In; lia). specialize (Hf i Hi).
    destruct (Z.leb_spec 0 i).
    - destruct (Z.eqb_spec b (-1)). { exists i. cbn. split; [reflexivity|]. right. split; [auto|lia]. }
      destruct Hb as [[? _]|[Hb1 Hb2]]; [congruence|]. rewrite (lgetZ_ok _ _ fzero) by lia. cbn [bind]. rewrite (lgetZ_ok _ _ fzero) by lia. cbn [bind].
      eexists. split; [reflexivity|]. right. destruct (fgeb _ _); split; auto; lia.
    - exists b. split; [reflexivity|]. destruct Hb as [[-> Hb]|Hb]; [|now right]. left. split; [reflexivity|].
      rewrite (firstn_snoc _ _ 0%Z) by lia. apply Forall_app. split; [exact Hb|]. repeat constructor. fold i. lia. }
  destruct (G (f_nin f) (le_n _)) as (b & E & [[-> Hb]|Hb]); [|eauto].
  exfalso. destruct Hex as (i & Hi & H0). rewrite firstn_all2 in Hb by lia. rewrite Forall_forall in Hb. specialize (Hb i Hi). lia.
Qed.

Lemma pool_output_wf k f x m : rowsOK (-1) k (f_nin f) (f_index f) -> Forall (fun row => exists i, In i row /\ (0 <= i)%Z) (f_index f) ->
  m = List.length (f_index f) -> m = List.length (f_maxIndex f) -> f_kernels f = m -> List.length x = k ->
  exists o best, pool_output f x = Ok (o, set_maxIndex f best) /\ List.length o = m /\ List.length best = m /\ Forall (fun i => 0 <= i < Z.of_nat k)%Z best.
Proof.
  intros HR Hex Hm Hm2 Hk Hx. unfold pool_output. destruct (Nat.ltb_spec (List.length (f_maxIndex f)) (List.length (f_index f))); [lia|].
  destruct (omap_all (maxIndexOf f x) (fun b => 0 <= b < Z.of_nat k)%Z (f_index f)) as (best & E & L & HB).
  { intros row Hin. destruct (rows_in _ _ _ _ _ HR Hin) as [Hl Hr]. rewrite Forall_forall in Hex.
    destruct (maxIndexOf_ok f k x row Hl Hr Hx (Hex row Hin)) as (b & E & _ & Hb). eauto. }
  rewrite E. cbn [bind]. destruct (omap_all (fun b => lgetZ x b) (fun _ => True) best) as (o & E2 & L2 & _).
  { intros b Hb. rewrite Forall_forall in HB. rewrite (lgetZ_ok _ _ fzero) by (rewrite Hx; auto). eauto. }
  rewrite E2. cbn [bind]. rewrite fill_ok by lia. cbn [bind]. rewrite skipn_all2, app_nil_r by lia. eexists _, _. split; [reflexivity|]. repeat split; auto; lia.
Qed.

Definition same_frame (b b' : Body) : Prop :=
  body_weights b' = body_weights b /\ match b, b' with
  | BFull _, BFull _ | BRec _, BRec _ | BGru _, BGru _ => True
  | BFilter k f _, BFilter k' f' _ => k' = k /\ f' = set_maxIndex f (f_maxIndex f')
  | _, _ => False end.
Definition same_kind (b b' : Body) : Prop :=
  List.length (body_weights b') = List.length (body_weights b) /\ match b, b' with
  | BFull _, BFull _ | BRec _, BRec _ | BGru _, BGru _ => True
  | BFilter k f _, BFilter k' f' _ => k' = k /\ f' = set_maxIndex f (f_maxIndex f')
  | _, _ => False end.
Lemma frame_kind b b' : same_frame b b' -> same_kind b b'.
Proof. intros [E H]. split; [now rewrite E|exact H]. Qed.
Lemma set_maxIndex_id f : f = set_maxIndex f (f_maxIndex f). Proof. now destruct f. Qed.

Lemma body_output_wf k b x reset m : wf_body k b m -> List.length x = k ->
  exists o b', body_output b x reset = Ok (o, b') /\ List.length o = m /\ wf_body k b' m /\ same_frame b b'.
Proof.
  intros W Hx. destruct b as [ns|ns|ns|kd f ns]; cbn [body_output wf_body] in *.
  - destruct W as (Hm & W). destruct (each_wf (fun _ n => simple_output n x) (wf_plain k) (fun _ => True) ns) as (bs & ns1 & E & L1 & L2 & F1 & _).
    { intros j a Ha. destruct (simple_output_wf k a x) as (v & n' & E & W' & _); eauto. eapply Forall_nth_error; eauto. }
    rewrite E. cbn [bind]. eexists _, _. split; [reflexivity|]. split; [lia|]. split; [split; [lia|exact F1]|]. split; [|exact I].
    eapply each_keeps; [|exact E]. intros j a b a' Ea. apply simple_output_inv in Ea as (_ & ? & _ & ->). reflexivity.
  - destruct W as (Hm & W). destruct (each_wf (fun _ n => rec_output n x reset) (fun n => wf_rneuron k n) (fun _ => True) ns) as (bs & ns1 & E & L1 & L2 & F1 & _).
    { intros j a Ha. destruct (rec_output_wf k a x reset) as (v & n' & E & W' & _); [eapply Forall_nth_error; eauto|exact Hx|]. exists v, n'. auto. }
    rewrite E. cbn [bind]. eexists _, _. split; [reflexivity|]. split; [lia|]. split; [split; [lia|exact F1]|]. split; [|exact I].
    eapply each_keeps; [|exact E]. intros j a b a' Ea. unfold rec_output in Ea.
    repeat (apply bind_Ok_inv in Ea as (? & _ & Ea)). injection Ea as <- <-. destruct reset; reflexivity.
  - destruct W as (Hm & W). destruct (each_wf (fun _ n => gru_output n x reset) (fun n => wf_gneuron k n /\ True) (fun _ => True) ns) as (bs & ns1 & E & L1 & L2 & F1 & _).
    { intros j a Ha. destruct (gru_output_wf k a x reset) as (v & n' & E & W' & _); [eapply Forall_nth_error; eauto|exact Hx|]. exists v, n'. auto. }
    rewrite E. cbn [bind]. eexists _, _. split; [reflexivity|]. split; [lia|]. split; [split; [lia|]|].
    { eapply Forall_impl; [|exact F1]. intros a [? _]; auto. }
    split; [|exact I]. pose proof (each_inv _ _ _ _ E) as (_ & L & Hj). cbn [body_weights]. apply nth_error_ext. intros i. rewrite !nth_error_map.
    destruct (nth_error ns i) as [a|] eqn:Ea.
    + destruct (Hj i a Ea) as (b & a' & _ & -> & Ef). cbn. f_equal. destruct (gru_output_wf k a x reset) as (v & n' & E' & _ & H); [eapply Forall_nth_error; eauto|auto|]. congruence.
    + apply nth_error_None in Ea. assert (Hn : nth_error ns1 i = None) by (apply nth_error_None; lia). rewrite Hn. reflexivity.
  - destruct W as (Hm & W). destruct kd; cbn [wf_filter] in W.
    1,2: destruct W as (HR & Hm2 & HW); destruct (conv_output_wf k f ns x m HR Hm2 ltac:(lia) HW Hx) as (o & ns' & E & L & F' & M); rewrite E; cbn [bind];
         eexists _, _; split; [reflexivity|]; split; [lia|]; split; [split; [exact Hm|split; [exact HR|split; [|exact F']]]|];
         [rewrite Hm2; f_equal; rewrite <- (map_length n_w ns), <- M, map_length; reflexivity|split; [exact M|split; [reflexivity|apply set_maxIndex_id]]].
    1,2: destruct W as (HR & HF & Hm2 & Hn & Hkp & HW); destruct (loc_output_wf k f ns x m HR HF Hm2 ltac:(lia) Hn HW Hx) as (o & ns' & E & L & F' & M); rewrite E; cbn [bind];
         eexists _, _; split; [reflexivity|]; split; [lia|]; split; [split; [exact Hm|repeat (split; [assumption|]); split; [|split; [assumption|exact F']]]|];
         [rewrite Hn, <- (map_length n_w ns), <- M, map_length; reflexivity|split; [exact M|split; [reflexivity|apply set_maxIndex_id]]].
    1,2: destruct W as (HR & HE & Hm2 & Hm3 & HM & Hn); destruct (pool_output_wf k f x m HR HE Hm2 Hm3 ltac:(lia) Hx) as (o & best & E & L & Lb & Fb); rewrite E; cbn [bind];
         eexists _, _; split; [reflexivity|]; split; [lia|]; split; [split; [exact Hm|repeat (split; [assumption|]); split; [cbn; lia|split; [exact Fb|exact Hn]]]|split; [reflexivity|split; reflexivity]].
Qed.

(* ---------- layer optimizers ---------- *)
Lemma mulMask_length v mask : List.length (mulMask v mask) = List.length v.
Proof. unfold mulMask. rewrite app_length, zipwith_length, skipn_length. lia. Qed.
Lemma softmax_length v : v <> [] -> exists r, computeSoftmax v = Ok r /\ List.length r = List.length v.
Proof. destruct v as [|x t]; [congruence|]. intros _. cbn [computeSoftmax]. eexists. split; [reflexivity|]. now rewrite !map_length. Qed.
Lemma opts_testing_length os : forall v, 0 < List.length v -> exists r, opts_testing os v = Ok r /\ List.length r = List.length v.
Proof.
  unfold opts_testing. induction os as [|o t IH]; intros v Hv; cbn [ofold]; [eauto|].
  assert (exists r, opt_testing o v = Ok r /\ List.length r = List.length v) as (r & E & L).
  { destruct o; cbn [opt_testing]; eauto.
    - eexists. split; [reflexivity|]. now rewrite map_length.
    - apply softmax_length. destruct v; [cbn in Hv; lia|congruence]. }
  rewrite E. cbn [bind]. destruct (IH r) as (r' & E' & L'); [lia|]. exists r'. split; [exact E'|lia].
Qed.
Lemma opts_training_length rand reset os : forall i v, 0 < List.length v -> exists r os', opts_training rand reset i os v = Ok (r, os') /\ List.length r = List.length v.
Proof.
  induction os as [|o t IH]; intros i v Hv; cbn [opts_training]; [eauto|].
  assert (exists r o', opt_training (rand i) reset o v = Ok (r, o') /\ List.length r = List.length v) as (r & o' & E & L).
  { destruct o; cbn [opt_training]; eauto.
    - eexists _, _. split; [reflexivity|]. apply mulMask_length.
    - destruct (softmax_length v) as (r & E & L); [destruct v; [cbn in Hv; lia|congruence]|]. rewrite E. cbn. eauto. }
  rewrite E. cbn [bind]. destruct (IH (S i) r) as (r' & os' & E' & L'); [lia|]. rewrite E'. cbn [bind]. eexists _, _. split; [reflexivity|lia].
Qed.
Lemma opts_back_length ws os : forall e, List.length (opts_back ws os e) = List.length e.
Proof.
  unfold opts_back. induction os as [|o t IH]; intros e; cbn [fold_left]; auto. rewrite IH.
  destruct o; cbn [opt_back]; rewrite ?map_length, ?mulMask_length; auto.
Qed.

Lemma kind_shape l b os : same_kind (l_body l) b -> getShapeOfOutput (mkLayer (l_in l) b os) = getShapeOfOutput l /\ getNumberOfNeurons (mkLayer (l_in l) b os) = getNumberOfNeurons l.
Proof.
  intros [M H]. assert (G : getNumberOfNeurons (mkLayer (l_in l) b os) = getNumberOfNeurons l) by (unfold getNumberOfNeurons, layer_weights; cbn [l_body]; now rewrite M).
  split; [|exact G]. unfold getShapeOfOutput in *. cbn [l_body]. destruct (l_body l), b; try contradiction; try (f_equal; exact G).
  destruct H as [_ ->]. reflexivity.
Qed.
Lemma layer_wf_step k l m b os : wf_layer k l m -> wf_body k b m -> same_kind (l_body l) b -> wf_layer k (mkLayer (l_in l) b os) m.
Proof.
  intros (Hi & Hk & Hm & W & HS) W' HF. repeat (split; [assumption|]). destruct (kind_shape l b os HF) as [-> _]. exact HS.
Qed.
Lemma layer_output_wf k l m x reset : wf_layer k l m -> List.length x = k ->
  exists o l', layer_output l x reset = Ok (o, l') /\ List.length o = m /\ wf_layer k l' m /\ same_frame (l_body l) (l_body l').
Proof.
  intros W Hx. pose proof W as (Hi & Hk & Hm & WB & HS). unfold layer_output.
  destruct (body_output_wf k _ x reset m WB Hx) as (o & b & E & L & W' & HF). rewrite E. cbn [bind].
  destruct (opts_testing_length (l_opts l) o) as (r & E' & L'); [lia|]. rewrite E'. cbn [bind]. eexists _, _. split; [reflexivity|].
  split; [lia|]. split; [eapply layer_wf_step; eauto using frame_kind|exact HF].
Qed.
Lemma layer_outputForTraining_wf rand k l m x reset : wf_layer k l m -> List.length x = k ->
  exists o l', layer_outputForTraining rand l x reset = Ok (o, l') /\ List.length o = m /\ wf_layer k l' m /\ same_frame (l_body l) (l_body l').
Proof.
  intros W Hx. pose proof W as (Hi & Hk & Hm & WB & HS). unfold layer_outputForTraining.
  destruct (body_output_wf k _ x reset m WB Hx) as (o & b & E & L & W' & HF). rewrite E. cbn [bind].
  destruct (opts_training_length rand reset (l_opts l) 0 o) as (r & os' & E' & L'); [lia|]. rewrite E'. cbn [bind]. eexists _, _. split; [reflexivity|].
  split; [lia|]. split; [eapply layer_wf_step; eauto using frame_kind|exact HF].
Qed.

(* ---------- backward ---------- *)
Lemma scatter_ok (test : bool) lo k row errs err : Forall (fun i => lo <= i < Z.of_nat k)%Z row -> (test = false -> (0 <= lo)%Z) ->
  List.length err <= List.length row -> List.length errs = k -> exists r, scatter test row errs err = Ok r /\ List.length r = k.
Proof.
  intros Hr Ht Hl He. unfold scatter. apply ofold_all; [exact He|]. intros s a Hs Ha. apply in_seq in Ha. rewrite Forall_forall in Hr.
  rewrite (lget_nth _ _ 0%Z) by lia. cbn [bind]. rewrite (lget_nth _ _ fzero) by lia. cbn [bind].
  set (i := nth a row 0%Z). assert (Hi : In i row) by (apply nth_In; lia). specialize (Hr i Hi).
  destruct (test && negb (0 <=? i)%Z) eqn:Eb; [eauto|]. assert (0 <= i)%Z.
  { destruct test; cbn in Eb; [|specialize (Ht eq_refl); lia]. destruct (Z.leb_spec 0 i); [auto|discriminate]. }
  rewrite (lgetZ_ok _ _ fzero) by lia. cbn [bind]. rewrite lsetZ_ok by lia. eexists. split; [reflexivity|]. now rewrite replace_length.
Qed.
Lemma scatters_ok (test : bool) lo k row es : Forall (fun i => lo <= i < Z.of_nat k)%Z row -> (test = false -> (0 <= lo)%Z) ->
  Forall (fun e => List.length e = List.length row) es -> forall errs, List.length errs = k ->
  exists r, ofold (scatter test row) es errs = Ok r /\ List.length r = k.
Proof.
  intros Hr Ht Hes errs He. apply ofold_all; [exact He|]. intros s a Hs Ha. rewrite Forall_forall in Hes. eapply scatter_ok; eauto. rewrite (Hes a Ha). lia.
Qed.
Lemma conv_back_wf o k f ns e m : rowsOK 0 k (f_nin f) (f_index f) -> m = List.length (f_index f) * List.length ns ->
  Forall (wf_plain (f_nin f)) ns -> m <= List.length e ->
  exists r ns', conv_back o k f ns e = Ok (r, ns') /\ List.length r = k /\ Forall (wf_plain (f_nin f)) ns' /\ List.length ns' = List.length ns.
Proof.
  intros HR Hm Hw He. unfold conv_back.
  match goal with |- context [ofold ?f0 _ _] => set (step := f0) end.
  assert (G : forall rows, rowsOK 0 k (f_nin f) rows -> forall errs i ns0, Forall (wf_plain (f_nin f)) ns0 -> List.length ns0 = List.length ns -> List.length errs = k ->
    i + List.length rows * List.length ns <= List.length e ->
    exists r i' ns', ofold step rows (errs, i, ns0) = Ok (r, i', ns') /\ List.length r = k /\ Forall (wf_plain (f_nin f)) ns' /\ List.length ns' = List.length ns).
  { induction rows as [|row t IH]; intros Hrows errs i ns0 H0 L0 Le Hi; cbn [ofold].
    - exists errs, i, ns0. auto.
    - inversion Hrows as [|? ? [Hl Hf] Ht]; subst. unfold step at 1.
      destruct (each_wf (fun n neuron => bind (lget e (i + n)) (fun e => simple_backOutput o neuron e)) (wf_plain (f_nin f)) (fun es => List.length es = List.length row) ns0) as (bs & ns1 & E & L1 & L2 & F1 & P1).
      { intros j a Ha. assert (j < List.length ns0) by (apply nth_error_Some; congruence). cbn [List.length] in Hi. rewrite (lget_nth _ _ fzero) by lia. cbn [bind].
        destruct (simple_back_wf o (f_nin f) a (nth (i + j) e fzero)) as (es & n' & E & W & L). { eapply Forall_nth_error; eauto. }
        exists es, n'. split; [exact E|]. split; [exact W|lia]. }
      rewrite E. cbn [bind]. destruct (scatters_ok false 0 (List.length errs) row bs Hf ltac:(lia) P1 errs eq_refl) as (r & Er & Lr). rewrite Er. cbn [bind].
      apply (IH Ht r (i + List.length ns0) ns1 F1); try lia. cbn [List.length] in Hi. lia. }
  destruct (G (f_index f) HR (repeat fzero k) 0 ns Hw eq_refl (repeat_length _ _) ltac:(lia)) as (r & i' & ns' & E & L & F' & L'). rewrite E. cbn [bind]. eauto 6.
Qed.
Lemma loc_back_wf two o k f ns e : rowsOK (-1) k (f_nin f) (f_index f) -> 0 < f_filters f -> List.length ns = List.length (f_index f) * f_filters f ->
  f_kpf f = List.length (f_index f) -> Forall (wf_plain (f_nin f)) ns -> List.length ns <= List.length e ->
  exists r ns', loc_back two o k f ns e = Ok (r, ns') /\ List.length r = k /\ Forall (wf_plain (f_nin f)) ns' /\ List.length ns' = List.length ns.
Proof.
  intros HR HF Hn Hkp Hw He. unfold loc_back. match goal with |- context [each ?f0 ns] => set (step := f0) end.
  destruct (each_wf step (wf_plain (f_nin f)) (fun re => List.length (snd re) <= List.length (fst re) /\ Forall (fun i => -1 <= i < Z.of_nat k)%Z (fst re)) ns) as (bs & ns1 & E & L1 & L2 & F1 & P1).
  { intros j a Ha. assert (Hj : j < List.length ns) by (apply nth_error_Some; congruence). unfold step. rewrite (lget_nth _ _ fzero) by lia. cbn [bind].
    destruct (simple_back_wf o (f_nin f) a (nth j e fzero)) as (es & n' & E & W & L). { eapply Forall_nth_error; eauto. } rewrite E. cbn [bind]. cbv zeta.
    destruct (Nat.eqb_spec (if two then f_filters f else f_kpf f) 0) as [Hd|Hd]. { destruct two; [lia|]. rewrite Hkp in Hd. rewrite Hd in Hn. cbn in Hn. lia. }
    destruct (Nat.eqb_spec (List.length es) 0) as [H0|H0].
    - cbn [bind]. eexists _, _. split; [reflexivity|]. split; [exact W|]. cbn [fst snd List.length]. split; [lia|constructor].
    - set (idx := if two then _ else _). assert (Hidx : idx < List.length (f_index f)).
      { unfold idx. destruct two; [apply Nat.div_lt_upper_bound; lia|]. rewrite Hkp in *. apply Nat.mod_upper_bound. lia. }
      rewrite (lget_nth _ _ []) by lia. cbn [bind]. eexists _, _. split; [reflexivity|]. split; [exact W|]. cbn [fst snd].
      destruct (rows_in _ _ _ _ (nth idx (f_index f) []) HR) as [Hl Hf]; [now apply nth_In|]. split; [lia|exact Hf]. }
  rewrite E. cbn [bind]. destruct (ofold_all (fun errs re => scatter true (fst re) errs (snd re)) (fun errs => List.length errs = k) bs (repeat fzero k)) as (r & Er & Lr).
  { apply repeat_length. }
  { intros s [row err] Hs Ha. rewrite Forall_forall in P1. destruct (P1 _ Ha) as [H1 H2]. cbn [fst snd] in *. eapply scatter_ok; eauto. discriminate. }
  rewrite Er. cbn [bind]. exists r, ns1. auto.
Qed.
Lemma pool_back_wf k f e : List.length e <= List.length (f_maxIndex f) -> Forall (fun i => 0 <= i < Z.of_nat k)%Z (f_maxIndex f) ->
  exists r, pool_back k f e = Ok r /\ List.length r = k.
Proof.
  intros Hl HM. unfold pool_back. apply ofold_all; [apply repeat_length|]. intros s a Hs Ha. apply in_seq in Ha.
  rewrite (lget_nth _ _ 0%Z) by lia. cbn [bind]. rewrite (lget_nth _ _ fzero) by lia. cbn [bind]. rewrite Forall_forall in HM.
  rewrite lsetZ_ok by (rewrite Hs; apply HM, nth_In; lia). eexists. split; [reflexivity|]. now rewrite replace_length.
Qed.
Lemma addErrors_ok a b : List.length a <= List.length b -> exists r, addErrors a b = Ok r /\ List.length r = List.length a.
Proof.
  intros H. unfold addErrors. destruct (omap_all (fun e => bind (lget a e) (fun x => bind (lget b e) (fun y => Ok (fadd x y)))) (fun _ => True) (seq 0 (List.length a))) as (r & E & L & _).
  - intros i Hi. apply in_seq in Hi. rewrite (lget_nth _ _ fzero) by lia. cbn [bind]. rewrite (lget_nth _ _ fzero) by lia. cbn. eauto.
  - rewrite E. exists r. rewrite seq_length in L. auto.
Qed.
Lemma addAll_ok k es : Forall (fun e => List.length e = k) es -> exists r, ofold addErrors es (repeat fzero k) = Ok r /\ List.length r = k.
Proof.
  intros H. apply ofold_all; [apply repeat_length|]. intros s a Hs Ha. rewrite Forall_forall in H. specialize (H a Ha).
  destruct (addErrors_ok s a) as (r & E & L); [lia|]. exists r. split; [exact E|lia].
Qed.
(* the errors a layer can be given: one per output; pooling also takes fewer (the library passes none to a last pooling layer) *)
Definition backable (b : Body) (m : nat) (e : list F) : Prop :=
  match b with
  | BFilter (Pool1D | Pool2D) _ _ => List.length e <= m
  | _ => List.length e = m
  end.
Lemma body_back_wf o k b m e : 0 < k -> wf_body k b m -> backable b m e ->
  exists r b', body_back o k b e = Ok (r, b') /\ List.length r = k /\ wf_body k b' m /\ same_kind b b'.
Proof.
  intros Hk W He. destruct b as [ns|ns|ns|kd f ns]; cbn [body_back wf_body] in *.
  - destruct W as (Hm & W). cbn in He.
    destruct (each_wf (fun n neuron => bind (lget e n) (fun e => simple_backOutput o neuron e)) (wf_plain k) (fun es => List.length es = k) ns) as (bs & ns1 & E & L1 & L2 & F1 & P1).
    { intros j a Ha. assert (j < List.length ns) by (apply nth_error_Some; congruence). rewrite (lget_nth _ _ fzero) by lia. cbn [bind].
      destruct (simple_back_wf o k a (nth j e fzero)) as (es & n' & E & W' & L); [eapply Forall_nth_error; eauto|]. exists es, n'. auto. }
    rewrite E. cbn [bind]. destruct (addAll_ok k bs P1) as (r & Er & Lr). rewrite Er. cbn [bind]. eexists _, _. split; [reflexivity|]. split; [exact Lr|].
    split; [split; [lia|exact F1]|]. split; [cbn; rewrite !map_length; lia|exact I].
  - destruct W as (Hm & W). cbn in He.
    destruct (each_wf (fun n neuron => bind (lget e n) (fun e => rec_backOutput o neuron e)) (fun n => wf_rneuron k n) (fun es => List.length es = k) ns) as (bs & ns1 & E & L1 & L2 & F1 & P1).
    { intros j a Ha. assert (j < List.length ns) by (apply nth_error_Some; congruence). rewrite (lget_nth _ _ fzero) by lia. cbn [bind].
      destruct (rec_back_wf o k a (nth j e fzero)) as (es & n' & E & W' & L); [eapply Forall_nth_error; eauto|]. exists es, n'. auto. }
    rewrite E. cbn [bind]. destruct (addAll_ok k bs P1) as (r & Er & Lr). rewrite Er. cbn [bind]. eexists _, _. split; [reflexivity|]. split; [exact Lr|].
    split; [split; [lia|exact F1]|]. split; [cbn; rewrite !map_length; lia|exact I].
  - destruct W as (Hm & W). cbn in He.
    destruct (each_wf (fun n neuron => bind (lget e n) (fun e => gru_backOutput o neuron e)) (fun n => wf_gneuron k n) (fun es => List.length es = k) ns) as (bs & ns1 & E & L1 & L2 & F1 & P1).
    { intros j a Ha. assert (j < List.length ns) by (apply nth_error_Some; congruence). rewrite (lget_nth _ _ fzero) by lia. cbn [bind].
      destruct (gru_back_wf o k a (nth j e fzero) Hk) as (es & n' & E & W' & L); [eapply Forall_nth_error; eauto|]. exists es, n'. auto. }
    rewrite E. cbn [bind]. destruct (addAll_ok k bs P1) as (r & Er & Lr). rewrite Er. cbn [bind]. eexists _, _. split; [reflexivity|]. split; [exact Lr|].
    split; [split; [lia|exact F1]|]. split; [cbn; rewrite !map_length; lia|exact I].
  - destruct W as (Hm & W). destruct kd; cbn [wf_filter backable] in W, He.
    1,2: destruct W as (HR & Hm2 & HW); destruct (conv_back_wf o k f ns e m HR Hm2 HW ltac:(lia)) as (r & ns' & E & L & F' & M); rewrite E; cbn [bind];
         eexists _, _; split; [reflexivity|]; split; [lia|]; split; [split; [exact Hm|split; [exact HR|split; [rewrite M; exact Hm2|exact F']]]|];
         split; [cbn; rewrite !map_length; exact M|split; [reflexivity|apply set_maxIndex_id]].
    1,2: destruct W as (HR & HF & Hm2 & Hn & Hkp & HW);
         match goal with |- context [loc_back ?t _ _ _ _ _] => destruct (loc_back_wf t o k f ns e HR HF ltac:(lia) Hkp HW ltac:(lia)) as (r & ns' & E & L & F' & M) end; rewrite E; cbn [bind];
         eexists _, _; split; [reflexivity|]; split; [lia|]; split; [split; [exact Hm|repeat (split; [assumption|]); split; [congruence|split; [assumption|exact F']]]|];
         split; [cbn; rewrite !map_length; exact M|split; [reflexivity|apply set_maxIndex_id]].
    1,2: destruct W as (HR & HE & Hm2 & Hm3 & HM & Hn); destruct (pool_back_wf k f e ltac:(lia) HM) as (r & E & L); rewrite E; cbn [bind];
         eexists _, _; split; [reflexivity|]; split; [lia|]; split; [split; [exact Hm|repeat (split; [assumption|]); exact Hn]|];
         split; [reflexivity|split; [reflexivity|apply set_maxIndex_id]].
Qed.
Lemma body_train_wf o k b m e : 0 < k -> wf_body k b m -> List.length (body_weights b) <= List.length e ->
  exists b', body_train o b e = Ok b' /\ wf_body k b' m /\ same_kind b b'.
Proof.
  intros Hk W He. destruct b as [ns|ns|ns|kd f ns]; cbn [body_train wf_body body_weights] in *; rewrite map_length in He.
  - destruct W as (Hm & W).
    destruct (each_wf (trained (simple_train o) e) (wf_plain k) (fun _ => True) ns) as (bs & ns1 & E & L1 & L2 & F1 & P1).
    { intros j a Ha. assert (j < List.length ns) by (apply nth_error_Some; congruence). unfold trained. rewrite (lget_nth _ _ fzero) by lia. cbn [bind].
      destruct (simple_train_wf o k a (nth j e fzero)) as (n' & E & W'); [eapply Forall_nth_error; eauto|]. rewrite E. cbn [bind]. exists tt, n'. auto. }
    rewrite E. cbn [bind]. eexists. split; [reflexivity|]. split; [split; [lia|exact F1]|]. split; [cbn; rewrite !map_length; lia|exact I].
  - destruct W as (Hm & W).
    destruct (each_wf (trained (rec_train o) e) (fun n => wf_rneuron k n) (fun _ => True) ns) as (bs & ns1 & E & L1 & L2 & F1 & P1).
    { intros j a Ha. assert (j < List.length ns) by (apply nth_error_Some; congruence). unfold trained. rewrite (lget_nth _ _ fzero) by lia. cbn [bind].
      destruct (rec_train_wf o k a (nth j e fzero)) as (n' & E & W'); [eapply Forall_nth_error; eauto|]. rewrite E. cbn [bind]. exists tt, n'. auto. }
    rewrite E. cbn [bind]. eexists. split; [reflexivity|]. split; [split; [lia|exact F1]|]. split; [cbn; rewrite !map_length; lia|exact I].
  - destruct W as (Hm & W).
    destruct (each_wf (trained (gru_train o) e) (fun n => wf_gneuron k n) (fun _ => True) ns) as (bs & ns1 & E & L1 & L2 & F1 & P1).
    { intros j a Ha. assert (j < List.length ns) by (apply nth_error_Some; congruence). unfold trained. rewrite (lget_nth _ _ fzero) by lia. cbn [bind].
      destruct (gru_train_wf o k a (nth j e fzero) Hk) as (n' & E & W'); [eapply Forall_nth_error; eauto|]. rewrite E. cbn [bind]. exists tt, n'. auto. }
    rewrite E. cbn [bind]. eexists. split; [reflexivity|]. split; [split; [lia|exact F1]|]. split; [cbn; rewrite !map_length; lia|exact I].
  - destruct W as (Hm & W).
    assert (G : Forall (wf_plain (f_nin f)) ns -> exists ns1 bs, each (trained (simple_train o) e) ns = Ok (bs, ns1) /\ Forall (wf_plain (f_nin f)) ns1 /\ List.length ns1 = List.length ns).
    { intros HW. destruct (each_wf (trained (simple_train o) e) (wf_plain (f_nin f)) (fun _ => True) ns) as (bs & ns1 & E & L1 & L2 & F1 & P1).
      { intros j a Ha. assert (j < List.length ns) by (apply nth_error_Some; congruence). unfold trained. rewrite (lget_nth _ _ fzero) by lia. cbn [bind].
        destruct (simple_train_wf o (f_nin f) a (nth j e fzero)) as (n' & E & W'); [eapply Forall_nth_error; eauto|]. rewrite E. cbn [bind]. exists tt, n'. auto. }
      eauto 6. }
    destruct kd; cbn [wf_filter] in W.
    1,2: destruct W as (HR & Hm2 & HW); destruct (G HW) as (ns' & bs & E & F' & M); rewrite E; cbn [bind];
         eexists; split; [reflexivity|]; split; [split; [exact Hm|split; [exact HR|split; [rewrite M; exact Hm2|exact F']]]|];
         split; [cbn; rewrite !map_length; exact M|split; [reflexivity|apply set_maxIndex_id]].
    1,2: destruct W as (HR & HF & Hm2 & Hn & Hkp & HW); destruct (G HW) as (ns' & bs & E & F' & M); rewrite E; cbn [bind];
         eexists; split; [reflexivity|]; split; [split; [exact Hm|repeat (split; [assumption|]); split; [congruence|split; [assumption|exact F']]]|];
         split; [cbn; rewrite !map_length; exact M|split; [reflexivity|apply set_maxIndex_id]].
    1,2: destruct W as (HR & HE & Hm2 & Hm3 & HM & Hn); 
         eexists; split; [reflexivity|]; split; [split; [exact Hm|repeat (split; [assumption|]); exact Hn]|];
         split; [reflexivity|split; [reflexivity|apply set_maxIndex_id]].
Qed.
End P.
