(* Memory safety of networks built by the factory. *)
From Verif Require Import Base Num ActModel NeuronModel LayerModel NetModel NeuronProofs LayerProofs SafeProofs SafeLayers FactoryModel FactorySpec FactoryProofs FilterSpec.
Local Open Scope nat_scope.

Lemma last_cons {A} (t : list A) : forall a b, last (a :: t) b = last t a.
Proof. induction t as [|c t IH]; intros a b; [reflexivity|]. rewrite (IH c a). exact (IH c b). Qed.
Section P.
Context {N : Num}.

Fixpoint wf_chain (k : nat) (ls : list Layer) (m : nat) : Prop :=
  match ls with [] => m = k | l :: t => exists h, wf_layer k l h /\ wf_chain h t m end.
(* the layer has kept its structure, through the operations of a network *)
Definition same_layer (l l' : Layer) : Prop := l_in l' = l_in l /\ same_kind (l_body l) (l_body l') /\ works l l'.
Lemma works_trans a b c : works a b -> works b c -> works a c.
Proof. intros H. induction H; intros; eauto using works_output, works_training, works_back, works_train, works_pool. Qed.
Lemma same_layer_shape l l' : same_layer l l' -> getShapeOfOutput l' = getShapeOfOutput l /\ getNumberOfNeurons l' = getNumberOfNeurons l.
Proof. intros (H1 & H2 & _). destruct l' as [i b os]. cbn in *. subst i. now apply kind_shape. Qed.
Lemma same_kind_trans a b c : same_kind a b -> same_kind b c -> same_kind a c.
Proof.
  intros [L1 H1] [L2 H2]. split; [congruence|]. destruct a, b, c; try contradiction; auto. destruct H1 as [-> E1], H2 as [-> E2]. split; [reflexivity|].
  transitivity (set_maxIndex f0 (f_maxIndex f1)); [exact E2|]. rewrite E1. reflexivity.
Qed.
Lemma same_layer_trans a b c : same_layer a b -> same_layer b c -> same_layer a c.
Proof. intros (? & ? & ?) (? & ? & ?). split; [congruence|]. eauto using same_kind_trans, works_trans. Qed.
Lemma Forall2_trans {A} (R : A -> A -> Prop) : (forall a b c, R a b -> R b c -> R a c) -> forall l1 l2 l3, Forall2 R l1 l2 -> Forall2 R l2 l3 -> Forall2 R l1 l3.
Proof.
  intros HR l1 l2 l3 H. revert l3. induction H; intros l3 H3; inversion H3; subst; constructor; eauto.
Qed.

Lemma chain_wf (f : nat -> Layer -> list F -> outcome (list F * Layer)) :
  (forall i k l m x, wf_layer k l m -> List.length x = k -> exists o l', f i l x = Ok (o, l') /\ List.length o = m /\ wf_layer k l' m /\ same_layer l l') ->
  forall ls i k m v, wf_chain k ls m -> List.length v = k ->
  exists o ls', chain f i ls v = Ok (o, ls') /\ List.length o = m /\ wf_chain k ls' m /\ Forall2 same_layer ls ls'.
Proof.
  intros Hf. induction ls as [|l t IH]; intros i k m v W Hv; cbn [chain wf_chain] in *.
  - eexists _, _. split; [reflexivity|]. split; [lia|]. split; [exact W|constructor].
  - destruct W as (h & W & Wt). destruct (Hf i k l h v W Hv) as (o & l' & E & L & W' & SS). rewrite E. cbn [bind].
    destruct (IH (S i) h m o Wt L) as (o2 & ls' & E2 & L2 & W2 & S2). rewrite E2. cbn [bind]. eexists _, _. split; [reflexivity|].
    split; [exact L2|]. split; [exists h; auto|constructor; auto].
Qed.
Lemma same_frame_layer l l' : l_in l' = l_in l -> same_frame (l_body l) (l_body l') -> works l l' -> same_layer l l'.
Proof. intros H1 H2 H3. split; [auto|]. split; [now apply frame_kind|exact H3]. Qed.
Lemma test_layer_wf reset k l m x : wf_layer k l m -> List.length x = k -> exists o l', layer_output l x reset = Ok (o, l') /\ List.length o = m /\ wf_layer k l' m /\ same_layer l l'.
Proof.
  intros W Hx. destruct (layer_output_wf k l m x reset W Hx) as (o & l' & E & L & W' & S). exists o, l'. split; [exact E|]. split; [exact L|]. split; [exact W'|].
  apply same_frame_layer; [|exact S|eapply works_output; [|exact E|apply works_none]; destruct W as (-> & _); exact Hx]. destruct W as (-> & _), W' as (-> & _). reflexivity.
Qed.
Lemma training_layer_wf rand reset k l m x : wf_layer k l m -> List.length x = k -> exists o l', layer_outputForTraining rand l x reset = Ok (o, l') /\ List.length o = m /\ wf_layer k l' m /\ same_layer l l'.
Proof.
  intros W Hx. destruct (layer_outputForTraining_wf rand k l m x reset W Hx) as (o & l' & E & L & W' & S). exists o, l'. split; [exact E|]. split; [exact L|]. split; [exact W'|].
  apply same_frame_layer; [|exact S|eapply works_training; [|exact E|apply works_none]; destruct W as (-> & _); exact Hx]. destruct W as (-> & _), W' as (-> & _). reflexivity.
Qed.
Lemma back_works o k l m e r l' : wf_layer k l m -> backable (l_body l) m e -> layer_backOutput o l e = Ok (r, l') -> works l l'.
Proof.
  intros (Hi & Hk & Hm & WB & HS) He E. fold (cell_count (getShapeOfOutput l)) in HS. destruct (Nat.eq_dec (List.length e) m) as [L|L]; [eapply works_back; [rewrite L; exact HS|exact E|apply works_none]|].
  eapply works_pool; [| |exact E|apply works_none].
  - unfold getNumberOfNeurons, layer_weights. destruct (l_body l) as [ns|ns|ns|kd f ns]; cbn [backable] in He; try congruence. destruct kd; try congruence.
    all: destruct WB as (_ & _ & _ & _ & _ & _ & ->); reflexivity.
  - rewrite <- HS. destruct (l_body l) as [ns|ns|ns|kd f ns]; cbn [backable] in He; try lia. destruct kd; lia.
Qed.
Lemma layer_back_wf o k l m e : wf_layer k l m -> backable (l_body l) m e -> exists r l', layer_backOutput o l e = Ok (r, l') /\ List.length r = k /\ wf_layer k l' m /\ same_layer l l'.
Proof.
  intros W He. pose proof W as (Hi & Hk & Hm & WB & HS). unfold layer_backOutput. cbv zeta. rewrite Hi.
  destruct (body_back_wf o k (l_body l) m (opts_back (layer_weights l) (l_opts l) e) Hk WB) as (r & b & E & L & W' & S).
  { unfold backable in *. rewrite opts_back_length. exact He. }
  rewrite E. cbn [bind]. eexists _, _. split; [reflexivity|]. split; [exact L|]. split.
  - rewrite <- Hi at 2. eapply layer_wf_step; eauto.
  - split; [cbn; auto|]. split; [exact S|]. eapply back_works; [exact W|exact He|]. unfold layer_backOutput. cbv zeta. rewrite Hi, E. reflexivity.
Qed.
Lemma layer_train_wf o k l m e : wf_layer k l m -> getNumberOfNeurons l <= List.length e -> exists l', layer_train o l e = Ok l' /\ wf_layer k l' m /\ same_layer l l'.
Proof.
  intros W He. pose proof W as (Hi & Hk & Hm & WB & HS). unfold layer_train. cbv zeta.
  destruct (body_train_wf o k (l_body l) m (opts_back (layer_weights l) (l_opts l) e) Hk WB) as (b & E & W' & S).
  { rewrite opts_back_length. exact He. }
  rewrite E. cbn [bind]. eexists. split; [reflexivity|]. split; [eapply layer_wf_step; eauto|]. split; [reflexivity|]. split; [exact S|]. eapply works_train; [exact He| |apply works_none]. unfold layer_train. cbv zeta. rewrite E. reflexivity.
Qed.
Lemma neurons_le k b m : wf_body k b m -> 0 < m -> List.length (body_weights b) <= m.
Proof.
  intros W Hm. destruct b as [ns|ns|ns|kd f ns]; cbn in W |- *; rewrite map_length; try lia.
  destruct W as (_ & W). destruct kd; cbn in W.
  1,2: destruct W as (_ & -> & _); destruct (List.length (f_index f)); lia.
  1,2: destruct W as (_ & _ & _ & -> & _); lia.
  1,2: destruct W as (_ & _ & _ & _ & _ & ->); cbn; lia.
Qed.
Lemma backable_full k b m e : wf_body k b m -> List.length e = m -> backable b m e.
Proof. intros W He. destruct b as [| | |[] ? ?]; cbn; lia. Qed.
Lemma chain_back_wf o ls : forall k m e, wf_chain k ls m ->
  match ls with [] => List.length e = k | a :: t => backable (l_body (last t a)) m e end ->
  exists r ls', chain_back o ls e = Ok (r, ls') /\ List.length r = k /\ wf_chain k ls' m /\ Forall2 same_layer ls ls'.
Proof.
  induction ls as [|l t IH]; intros k m e W He; cbn [chain_back wf_chain] in *.
  - eexists _, _. split; [reflexivity|]. auto.
  - destruct W as (h & W & Wt).
    assert (G : exists r t', chain_back o t e = Ok (r, t') /\ backable (l_body l) h r /\ wf_chain h t' m /\ Forall2 same_layer t t').
    { destruct t as [|b t].
      - cbn [chain_back last wf_chain] in *. subst h. eexists _, _. split; [reflexivity|]. split; [exact He|]. split; [reflexivity|constructor].
      - destruct (IH h m e Wt) as (r & t' & E & L & W' & S).
        { rewrite <- (last_cons t b l). exact He. }
        exists r, t'. split; [exact E|]. split; [|auto]. destruct W as (_ & _ & _ & WB & _). eapply backable_full; eauto. }
    destruct G as (r & t' & E & B & W' & S). rewrite E. cbn [bind].
    destruct (layer_back_wf o k l h r W B) as (r2 & l' & E2 & L2 & W2 & S2). rewrite E2. cbn [bind]. eexists _, _. split; [reflexivity|].
    split; [exact L2|]. split; [exists h; auto|constructor; auto].
Qed.

Definition wf_net (k m : nat) (net : Net) : Prop := nn_layers net <> [] /\ wf_chain k (nn_layers net) m.
Lemma net_output_wf k m net x reset : wf_net k m net -> List.length x = k ->
  exists o net', net_output net x reset = Ok (o, net') /\ List.length o = m /\ wf_net k m net' /\ Forall2 same_layer (nn_layers net) (nn_layers net').
Proof.
  intros [Hne W] Hx. destruct (chain_wf (fun _ l v => layer_output l v reset) (fun i => test_layer_wf reset) _ 0 k m x W Hx) as (o & ls' & E & L & W' & S).
  unfold net_output. rewrite E. destruct (nn_layers net) as [|a t] eqn:El; [congruence|]. cbn [bind]. eexists _, _. split; [reflexivity|]. split; [exact L|].
  split; [|exact S]. split; [|exact W']. cbn [nn_layers]. inversion S; subst; discriminate.
Qed.
Lemma net_training_wf rand k m net x reset : wf_net k m net -> List.length x = k ->
  exists o net', net_outputForTraining rand net x reset = Ok (o, net') /\ List.length o = m /\ wf_net k m net' /\ Forall2 same_layer (nn_layers net) (nn_layers net').
Proof.
  intros [Hne W] Hx. destruct (chain_wf (fun i l v => layer_outputForTraining (rand i) l v reset) (fun i => training_layer_wf (rand i) reset) _ 0 k m x W Hx) as (o & ls' & E & L & W' & S).
  unfold net_outputForTraining. rewrite E. destruct (nn_layers net) as [|a t] eqn:El; [congruence|]. cbn [bind]. eexists _, _. split; [reflexivity|]. split; [exact L|].
  split; [|exact S]. split; [|exact W']. cbn [nn_layers]. inversion S; subst; discriminate.
Qed.
Lemma wf_chain_last k a t m : wf_chain k (a :: t) m -> exists k', wf_layer k' (last t a) m.
Proof.
  revert k a. induction t as [|b t IH]; intros k a (h & W & Wt); cbn [wf_chain] in Wt.
  - subst h. exists k. exact W.
  - rewrite last_cons. eapply IH. exact Wt.
Qed.
Lemma same_last a t a' t' : same_layer a a' -> Forall2 same_layer t t' -> same_layer (last t a) (last t' a').
Proof.
  intros Ha Ht. revert a a' Ha. induction Ht; intros a a' Ha; [exact Ha|]. rewrite !last_cons. auto.
Qed.
Lemma trainable_same net net' : Forall2 same_layer (nn_layers net) (nn_layers net') -> trainable net -> trainable net'.
Proof.
  unfold trainable. intros S. inversion S as [|a a' t t' Ha Ht E1 E2]; auto. intros H. destruct t as [|b t].
  - inversion Ht; subst. exact I.
  - inversion Ht as [|? b' ? t2 Hb Ht2]; subst. destruct (same_layer_shape _ _ (same_last a (b :: t) a' (b' :: t2) Ha Ht)) as [-> ->]. exact H.
Qed.
Lemma calculateError_ok n o d : n <= List.length o -> n <= List.length d -> exists e, calculateError n o d = Ok e /\ List.length e = n.
Proof.
  intros Ho Hd. unfold calculateError. rewrite (omap_seq_ok _ (fun i => fmul (fofZ 2) (fsub (nth i d fzero) (nth i o fzero)))).
  - eexists. split; [reflexivity|]. now rewrite map_length, seq_length.
  - intros i Hi. rewrite (lget_nth _ _ fzero) by lia. cbn [bind]. rewrite (lget_nth _ _ fzero) by lia. reflexivity.
Qed.
Lemma lget_last {A} (a : A) t : lgetZ (a :: t) (Z.of_nat (List.length (a :: t)) - 1) = Ok (last t a).
Proof.
  unfold lgetZ. destruct (Z.ltb_spec (Z.of_nat (List.length (a :: t)) - 1) 0); [cbn [List.length] in *; lia|].
  replace (Z.to_nat (Z.of_nat (List.length (a :: t)) - 1)) with (List.length t) by (cbn [List.length]; lia). clear.
  revert a. induction t as [|b t IH]; intros a; [reflexivity|]. rewrite last_cons. exact (IH b).
Qed.
Lemma trainOnce_wf rand k m net x d reset : wf_net k m net -> trainable net -> List.length x = k -> net_numberOfOutputs net = Ok (List.length d) ->
  exists net', trainOnce rand net x d reset = Ok net' /\ wf_net k m net' /\ Forall2 same_layer (nn_layers net) (nn_layers net') /\ nn_opt net' = nn_opt net.
Proof.
  intros W T Hx Hd. unfold trainOnce, backpropagation.
  destruct (net_training_wf rand k m net x reset W Hx) as (o & net1 & E & L & W1 & S1). rewrite E. cbn [bind].
  assert (Eo : nn_opt net1 = nn_opt net).
  { unfold net_outputForTraining in E. destruct (nn_layers net); [discriminate|]. apply bind_Ok_inv in E as ([? ?] & _ & E). injection E as <- <-. reflexivity. }
  destruct (nn_nan net1). { cbn [bind]. eexists. split; [reflexivity|]. auto. }
  pose proof (trainable_same _ _ S1 T) as T1. destruct W1 as [Hne1 WC]. unfold trainable in T1. destruct (nn_layers net1) as [|a t] eqn:E1; [congruence|].
  rewrite last_cons.
  assert (Hnn : getNumberOfNeurons (last t a) = List.length d).
  { inversion S1 as [|a0 ? t0 ? Ha Ht El]; subst. unfold net_numberOfOutputs in Hd. rewrite <- El in Hd. rewrite lget_last in Hd. cbn [bind] in Hd. injection Hd as Hd.
    rewrite <- Hd. apply same_layer_shape. now apply same_last. }
  destruct (wf_chain_last _ _ _ _ WC) as (kl & WL). pose proof WL as (_ & _ & Hm & WLB & HS).
  pose proof (neurons_le _ _ _ WLB Hm) as Hle. fold (layer_weights (last t a)) in Hle. fold (getNumberOfNeurons (last t a)) in Hle.
  destruct (calculateError_ok (getNumberOfNeurons (last t a)) o d) as (e & Ee & Le); [lia|lia|]. rewrite Ee. cbn [bind].
  cbn [wf_chain] in WC. destruct WC as (h & Wa & Wt).
  assert (G : match t with [] => True | b :: u => backable (l_body (last u b)) m e end).
  { destruct t as [|b u]; [exact I|]. rewrite last_cons in *. unfold cell_count in T1. rewrite <- HS in T1.
    destruct T1 as [T1|T1]; [eapply backable_full; eauto; lia|].
    assert (Hne : getNumberOfNeurons (last u b) = m \/ backable (l_body (last u b)) m e); [|destruct Hne; [lia|auto]].
    unfold getNumberOfNeurons, layer_weights in *. destruct (l_body (last u b)) as [ns|ns|ns|kd f ns]; cbn in WLB |- *; rewrite ?map_length.
    1,2,3: left; lia.
    destruct WLB as (_ & WF). destruct kd; cbn in WF.
    1,2: exfalso; cbn in T1; rewrite map_length in T1; destruct WF as (_ & -> & _); rewrite T1 in Hm; lia.
    1,2: left; destruct WF as (_ & _ & _ & -> & _); reflexivity.
    1,2: right; lia. }
  destruct t as [|b u].
  - cbn [chain_back bind]. cbn [last] in *. destruct (layer_train_wf (nn_opt net1) k a h e Wa) as (a' & Ea & Wa' & Sa); [lia|]. rewrite Ea. cbn [bind].
    eexists. split; [reflexivity|]. split; [split; [discriminate|]; cbn [nn_layers wf_chain]; exists h; auto|]. split; [|exact Eo].
    cbn [nn_layers]. inversion S1 as [|a0 ? t0 ? Ha Ht]; subst. inversion Ht; subst. constructor; [|constructor]. eapply same_layer_trans; eauto.
  - destruct (chain_back_wf (nn_opt net1) (b :: u) h m e Wt G) as (r & t' & Er & Lr & Wr & Sr). rewrite Er. cbn [bind].
    pose proof Wa as (_ & _ & Hh & WB & _). pose proof (neurons_le _ _ _ WB Hh) as Hl2. fold (layer_weights a) in Hl2. fold (getNumberOfNeurons a) in Hl2.
    destruct (layer_train_wf (nn_opt net1) k a h r Wa) as (a' & Ea & Wa' & Sa); [lia|]. rewrite Ea. cbn [bind].
    eexists. split; [reflexivity|]. split; [split; [discriminate|]; cbn [nn_layers wf_chain]; exists h; auto|]. split; [|exact Eo].
    cbn [nn_layers]. inversion S1 as [|a0 ? t0 ? Ha Ht]; subst. constructor; [eapply same_layer_trans; eauto|].
    eapply Forall2_trans; [exact same_layer_trans|exact Ht|exact Sr].
Qed.
Lemma layer_outputs_wf ls : forall k m x, wf_chain k ls m -> List.length x = k ->
  exists outs ls', chain_outputs ls x = Ok (outs, ls') /\ wf_chain k ls' m /\ Forall2 same_layer ls ls' /\
    Forall2 (fun l o => List.length o = cell_count (getShapeOfOutput l)) ls outs.
Proof.
  induction ls as [|l t IH]; intros k m x W Hx; cbn [chain_outputs wf_chain] in *.
  - eexists _, _. split; [reflexivity|]. auto.
  - destruct W as (h & W & Wt). destruct (test_layer_wf true k l h x W Hx) as (o & l' & E & L & W' & S). rewrite E. cbn [bind].
    destruct (IH h m o Wt L) as (outs & ls' & E2 & W2 & S2 & F2). rewrite E2. cbn [bind]. eexists _, _. split; [reflexivity|].
    split; [exists h; auto|]. split; [constructor; auto|]. constructor; [|exact F2]. destruct W as (_ & _ & _ & _ & HS). unfold cell_count. congruence.
Qed.
Lemma getLayerOutputs_wf k m net x : wf_net k m net -> List.length x = k ->
  exists outs net', getLayerOutputs net x = Ok (outs, net') /\ wf_net k m net' /\ Forall2 same_layer (nn_layers net) (nn_layers net') /\
    Forall2 (fun l o => List.length o = cell_count (getShapeOfOutput l)) (nn_layers net) outs.
Proof.
  intros [Hne W] Hx. destruct (layer_outputs_wf _ k m x W Hx) as (outs & ls' & E & W' & S & F).
  unfold getLayerOutputs. rewrite E. destruct (nn_layers net) as [|a t] eqn:El; [congruence|]. cbn [bind]. eexists _, _. split; [reflexivity|].
  split; [|auto]. split; [|exact W']. cbn [nn_layers]. inversion S; subst; discriminate.
Qed.
Lemma uses_wf k m net net' : wf_net k m net -> uses k net net' -> wf_net k m net' /\ Forall2 same_layer (nn_layers net) (nn_layers net').
Proof.
  intros W U. induction U as [net|net x reset o net1 net2 Hx E U IH|net rand x reset o net1 net2 Hx E U IH|net x o net1 net2 Hx E U IH|net rand x d reset net1 net2 Hx Hd HT E U IH].
  - split; [exact W|]. clear. induction (nn_layers net); constructor; auto. split; [reflexivity|]. split; [|apply works_none]. split; [reflexivity|]. destruct (l_body a); auto. split; [reflexivity|]. apply set_maxIndex_id.
  - destruct (net_output_wf k m net x reset W Hx) as (o' & n1 & E' & _ & W1 & S1). rewrite E in E'. injection E' as <- <-.
    destruct (IH W1) as [W2 S2]. split; [exact W2|]. eapply Forall2_trans; [exact same_layer_trans|exact S1|exact S2].
  - destruct (net_training_wf rand k m net x reset W Hx) as (o' & n1 & E' & _ & W1 & S1). rewrite E in E'. injection E' as <- <-.
    destruct (IH W1) as [W2 S2]. split; [exact W2|]. eapply Forall2_trans; [exact same_layer_trans|exact S1|exact S2].
  - destruct (getLayerOutputs_wf k m net x W Hx) as (o' & n1 & E' & W1 & S1 & _). rewrite E in E'. injection E' as <- <-.
    destruct (IH W1) as [W2 S2]. split; [exact W2|]. eapply Forall2_trans; [exact same_layer_trans|exact S1|exact S2].
  - destruct (trainOnce_wf rand k m net x d reset W HT Hx Hd) as (n1 & E' & W1 & S1 & _). rewrite E in E'. injection E' as <-.
    destruct (IH W1) as [W2 S2]. split; [exact W2|]. eapply Forall2_trans; [exact same_layer_trans|exact S1|exact S2].
Qed.
Lemma wf_sizes ls : forall k m, wf_chain k ls m -> sizes_chain k ls.
Proof.
  induction ls as [|l t IH]; intros k m W; cbn in *; [exact I|]. destruct W as (h & W & Wt). destruct W as (Hi & _ & _ & _ & HS). split; [exact Hi|].
  fold (cell_count (getShapeOfOutput l)) in HS. rewrite <- HS. eauto.
Qed.
End P.
