(* C73: proofs about the two threads. *)
From Coq Require Import Lia.
From Verif Require Import Base Num ActModel NeuronModel LayerModel NetModel FactoryModel FactorySpec NeuronProofs LayerProofs EvalProofs SafeProofs SafeLayers SafeNet RaceModel.
Local Open Scope nat_scope.

Section P.
Context {N : Num}.
(* the sizes of the vectors between the layers *)
Definition sized (dims : nat -> nat) (ls : list Layer) : Prop := forall i l, nth_error ls i = Some l -> wf_layer (dims i) l (dims (S i)).
Lemma sized_of ls : forall k m, wf_chain k ls m -> exists dims, dims 0 = k /\ dims (List.length ls) = m /\ sized dims ls.
Proof.
  induction ls as [|a t IH]; intros k m W; cbn [wf_chain] in W.
  - exists (fun _ => k). subst m. split; [reflexivity|]. split; [reflexivity|]. intros [|i] l H; discriminate.
  - destruct W as (h & Wa & Wt). destruct (IH h m Wt) as (dims & D0 & Dm & D). exists (fun i => match i with 0 => k | S j => dims j end). split; [reflexivity|]. split; [exact Dm|].
    intros [|i] l H; cbn in H; [injection H as <-; rewrite D0; exact Wa|]. exact (D i l H).
Qed.
Lemma sized_wf dims ls : sized dims ls -> forall i, wf_chain (dims i) (skipn i ls) (dims (Nat.max i (List.length ls))).
Proof.
  intros D i. remember (List.length ls - i) as u eqn:Eu. revert i Eu. induction u as [|u IH]; intros i Eu.
  - rewrite skipn_all2 by lia. cbn. f_equal. lia.
  - destruct (nth_error ls i) as [l|] eqn:E; [|apply nth_error_None in E; lia]. rewrite (skipn_at _ _ _ E). cbn [wf_chain]. exists (dims (S i)). split; [exact (D i l E)|].
    specialize (IH (S i) ltac:(lia)). replace (Nat.max i (List.length ls)) with (Nat.max (S i) (List.length ls)) by lia. exact IH.
Qed.

Lemma sized_net dims ls : ls <> [] -> sized dims ls -> wf_chain (dims 0) ls (dims (List.length ls)).
Proof. intros _ D. exact (sized_wf dims ls D 0). Qed.
Lemma replace_same (R : Layer -> Layer -> Prop) ls0 ls i l l' : (forall a b c, R a b -> R b c -> R a c) -> Forall2 R ls0 ls -> nth_error ls i = Some l -> R l l' -> Forall2 R ls0 (replace ls i l').
Proof.
  intros Tr F. revert i. induction F as [|a b t u Hab Ft IH]; intros [|i] E Hl; cbn in *; try discriminate; [injection E as ->; constructor; [exact (Tr _ _ _ Hab Hl)|assumption]|constructor; [assumption|now apply IH]].
Qed.
Lemma sized_replace dims ls i l l' : sized dims ls -> nth_error ls i = Some l -> wf_layer (dims i) l' (dims (S i)) -> sized dims (replace ls i l').
Proof.
  intros D E W j a Ha. rewrite nth_error_replace in Ha. destruct (Nat.eqb_spec j i) as [->|_]; [|exact (D j a Ha)]. destruct (i <? List.length ls); [injection Ha as <-; exact W|discriminate].
Qed.
Lemma last_nth (a : Layer) t : nth_error (a :: t) (List.length t) = Some (last t a).
Proof. revert a. induction t as [|b t IH]; intros a; [reflexivity|]. rewrite last_cons. exact (IH b). Qed.
Lemma backable_same b b' m e : same_kind b b' -> backable b m e -> backable b' m e.
Proof. intros (_ & H) B. destruct b as [ | | |k ? ?], b' as [ | | |k' ? ?]; try contradiction; auto. destruct H as (-> & _). exact B. Qed.

Definition back_ok (dims : nat -> nat) (i : nat) (e : list F) (l : Layer) : Prop := match i with 0 => getNumberOfNeurons l <= List.length e | S _ => backable (l_body l) (dims (S i)) e end.
Lemma back_ok_same dims i e l l' : same_layer l l' -> back_ok dims i e l -> back_ok dims i e l'.
Proof.
  intros H. destruct (same_layer_shape _ _ H) as (_ & En). destruct i; cbn [back_ok]; [now rewrite En|]. apply backable_same, H.
Qed.
Definition job_ok (dims : nat -> nat) (out : nat) (j : TJob) : Prop := List.length (tj_in j) = dims 0 /\ List.length (tj_out j) = out.
Definition t_ok (dims : nat -> nat) (out : nat) (ls : list Layer) (t : tpc) : Prop :=
  match t with
  | T_idle | T_count => True
  | T_forward i v j => i <= List.length ls /\ List.length v = dims i /\ job_ok dims out j
  | T_backward i e => exists l, nth_error ls i = Some l /\ back_ok dims i e l
  end.
Definition p_ok (dims : nat -> nat) (ls : list Layer) (p : ppc) : Prop := match p with P_idle => True | P_forward i v _ => i <= List.length ls /\ List.length v = dims i end.
Definition busy_t (t : tpc) : nat := match t with T_idle => 0 | _ => 1 end.
Definition busy_p (p : ppc) : nat := match p with P_idle => 0 | _ => 1 end.
Record Inv (dims : nat -> nat) (out nt np : nat) (net0 : Net) (s : Race) : Prop := {
  i_ne : nn_layers (ra_net s) <> [];
  i_sized : sized dims (nn_layers (ra_net s));
  i_same : Forall2 same_layer (nn_layers net0) (nn_layers (ra_net s));
  i_opt : nn_opt (ra_net s) = nn_opt net0;
  i_t : t_ok dims out (nn_layers (ra_net s)) (ra_t s);
  i_tj : Forall (job_ok dims out) (ra_tjobs s);
  i_p : p_ok dims (nn_layers (ra_net s)) (ra_p s);
  i_pj : Forall (fun j => List.length (fst j) = dims 0) (ra_pjobs s);
  i_res : Forall (fun o => List.length o = dims (List.length (nn_layers net0))) (ra_results s);
  i_nt : (nn_trainings (ra_net s) + Z.of_nat (List.length (ra_tjobs s) + busy_t (ra_t s)) = nn_trainings net0 + Z.of_nat nt)%Z;
  i_np : List.length (ra_results s) + List.length (ra_pjobs s) + busy_p (ra_p s) = np }.

Lemma t_ok_replace dims out ls i l l' t : nth_error ls i = Some l -> same_layer l l' -> t_ok dims out ls t -> t_ok dims out (replace ls i l') t.
Proof.
  intros E Hs. destruct t as [|j v jb|j e|]; cbn [t_ok]; auto; [now rewrite replace_length|]. intros (a & Ha & B). rewrite nth_error_replace. destruct (Nat.eqb_spec j i) as [->|_]; [|eauto].
  assert (Hi : i < List.length ls) by (apply nth_error_Some; congruence). destruct (Nat.ltb_spec i (List.length ls)); [|lia]. exists l'. split; [reflexivity|]. assert (a = l) as -> by congruence. eapply back_ok_same; eassumption.
Qed.
Lemma p_ok_replace dims ls i l' p : p_ok dims ls p -> p_ok dims (replace ls i l') p.
Proof. destruct p; cbn [p_ok]; auto. now rewrite replace_length. Qed.
Lemma replace_ne {A} (ls : list A) i x : ls <> [] -> replace ls i x <> [].
Proof. destruct ls, i; cbn; congruence. Qed.

(* the error vector fits the last layer *)
Lemma last_back dims (out : nat) (net : Net) a t e : nn_layers net = a :: t -> sized dims (a :: t) -> trainable net -> List.length e = getNumberOfNeurons (last t a) -> back_ok dims (List.length t) e (last t a).
Proof.
  intros El D T Le. assert (WL := D _ _ (last_nth a t)). destruct WL as (_ & _ & Hm & WLB & HS). unfold trainable in T. rewrite El in T.
  destruct t as [|b u]; cbn [back_ok List.length]; [cbn [last] in *; lia|]. set (m := dims (S (S (List.length u)))) in *. cbn [List.length] in WLB, HS, Hm. fold m in WLB, HS, Hm. cbv zeta in T. rewrite last_cons in *. unfold cell_count in T. rewrite <- HS in T.
  assert (Hle := neurons_le _ _ _ WLB Hm). fold (layer_weights (last u b)) in Hle. fold (getNumberOfNeurons (last u b)) in Hle.
  destruct T as [T1|T1]; [eapply backable_full; [eassumption|lia]|].
  assert (Hne : getNumberOfNeurons (last u b) = m \/ backable (l_body (last u b)) m e); [|destruct Hne; [lia|auto]].
  unfold getNumberOfNeurons, layer_weights in *. destruct (l_body (last u b)) as [ns|ns|ns|kd f ns]; cbn in WLB |- *; rewrite ?map_length.
  1,2,3: left; lia.
  destruct WLB as (_ & WF). destruct kd; cbn in WF.
  1,2: exfalso; cbn in T1; rewrite map_length in T1; destruct WF as (_ & -> & _); rewrite T1 in Hm; lia.
  1,2: left; destruct WF as (_ & _ & _ & -> & _); reflexivity.
  1,2: right; lia.
Qed.

Section Steps.
Variables (dims : nat -> nat) (out nt np : nat) (net0 : Net).
Hypothesis Hout : net_numberOfOutputs net0 = Ok out.
Hypothesis Htr : trainable net0.
Notation I := (Inv dims out nt np net0).
Lemma same_out net a t : Forall2 same_layer (nn_layers net0) (nn_layers net) -> nn_layers net = a :: t -> getNumberOfNeurons (last t a) = out.
Proof.
  intros S1 E. rewrite E in S1. inversion S1 as [|a0 ? t0 ? Ha Ht El]; subst. unfold net_numberOfOutputs in Hout. rewrite <- El in Hout. rewrite lget_last in Hout. cbn [bind] in Hout. injection Hout as <-. apply same_layer_shape. now apply same_last.
Qed.
Lemma tstep_inv s : I s -> exists s', tstep s = Ok s' /\ I s'.
Proof.
  intros [H1 H2 H3 H4 H5 H6 H7 H8 H9 H10 H11]. unfold tstep. destruct s as [net t tj p pj res]; cbn [ra_net ra_t ra_tjobs ra_p ra_pjobs ra_results] in *. destruct t as [|i v j|[|i] e|].
  - destruct tj as [|j tj]; [eexists; split; [reflexivity|]; constructor; auto|]. destruct (nn_layers net) as [|a u] eqn:El; [congruence|]. eexists. split; [reflexivity|]. inversion H6 as [|? ? J1 J2]; subst. constructor; cbn [ra_net ra_t ra_tjobs ra_p ra_pjobs ra_results busy_t t_ok]; rewrite ?El; auto; [|cbn [List.length busy_t] in *; lia].
    split; [lia|]. split; [apply J1|exact J1].
  - destruct H5 as (Hi & Hv & HJ). destruct (nth_error (nn_layers net) i) as [l|] eqn:El.
    + destruct (training_layer_wf (tj_rand j i) (tj_reset j) _ l _ v (H2 i l El) Hv) as (o & l' & E & Lo & W & SL). rewrite E. cbn [bind]. eexists. split; [reflexivity|].
      assert (Hi2 : i < List.length (nn_layers net)) by (apply nth_error_Some; congruence).
      constructor; cbn [ra_net ra_t ra_tjobs ra_p ra_pjobs ra_results set_layer nn_layers nn_opt nn_trainings busy_t t_ok]; auto using replace_ne, p_ok_replace; [eapply sized_replace; eassumption|eapply replace_same; eauto using same_layer_trans|].
      split; [rewrite replace_length; lia|]. auto.
    + apply nth_error_None in El. assert (i = List.length (nn_layers net)) as -> by lia. destruct (nn_nan (flag net v)).
      * eexists. split; [reflexivity|]. constructor; cbn [ra_net ra_t ra_tjobs ra_p ra_pjobs ra_results flag nn_layers nn_opt nn_trainings busy_t t_ok]; auto.
      * cbn [flag nn_layers]. destruct (nn_layers net) as [|a u] eqn:El2; [congruence|]. rewrite <- El2 in H3. assert (En := same_out net a u H3 El2). rewrite El2 in H3.
        assert (WL := H2 _ _ (last_nth a u)). destruct WL as (_ & _ & Hm & WLB & _). assert (Hle := neurons_le _ _ _ WLB Hm). fold (layer_weights (last u a)) in Hle. fold (getNumberOfNeurons (last u a)) in Hle.
        destruct HJ as (_ & HJ). cbn [List.length] in Hv. destruct (calculateError_ok (getNumberOfNeurons (last u a)) v (tj_out j)) as (e & Ee & Le); [lia|lia|]. rewrite Ee. cbn [bind]. eexists. split; [reflexivity|].
        constructor; cbn [ra_net ra_t ra_tjobs ra_p ra_pjobs ra_results flag nn_layers nn_opt nn_trainings busy_t t_ok]; rewrite ?El2; auto.
        exists (last u a). split; [apply last_nth|]. eapply last_back with (net := net); eauto. eapply trainable_same; [|exact Htr]. rewrite El2. exact H3.
  - destruct H5 as (l & El & B). rewrite El. cbn [back_ok] in B. destruct (layer_train_wf (nn_opt net) _ l _ e (H2 0 l El) B) as (l' & E & W & SL). rewrite E. cbn [bind]. eexists. split; [reflexivity|].
    constructor; cbn [ra_net ra_t ra_tjobs ra_p ra_pjobs ra_results set_layer nn_layers nn_opt nn_trainings busy_t t_ok]; auto using replace_ne, p_ok_replace; [eapply sized_replace; eassumption|eapply replace_same; eauto using same_layer_trans].
  - destruct H5 as (l & El & B). rewrite El. cbn [back_ok] in B. destruct (layer_back_wf (nn_opt net) _ l _ e (H2 (S i) l El) B) as (r & l' & E & Lr & W & SL). rewrite E. cbn [bind]. eexists. split; [reflexivity|].
    constructor; cbn [ra_net ra_t ra_tjobs ra_p ra_pjobs ra_results set_layer nn_layers nn_opt nn_trainings busy_t t_ok]; auto using replace_ne, p_ok_replace; [eapply sized_replace; eassumption|eapply replace_same; eauto using same_layer_trans|].
    assert (Hi2 : S i < List.length (nn_layers net)) by (apply nth_error_Some; congruence). destruct (nth_error (nn_layers net) i) as [b|] eqn:Eb; [|apply nth_error_None in Eb; lia]. exists b. rewrite nth_error_replace. destruct (Nat.eqb_spec i (S i)); [lia|]. split; [exact Eb|].
    destruct (H2 i b Eb) as (_ & _ & Hm & WB & _). destruct i; cbn [back_ok]; [|eapply backable_full; eassumption]. assert (Hle := neurons_le _ _ _ WB Hm). fold (layer_weights b) in Hle. fold (getNumberOfNeurons b) in Hle. lia.
  - eexists. split; [reflexivity|]. constructor; cbn [ra_net ra_t ra_tjobs ra_p ra_pjobs ra_results nn_layers nn_opt nn_trainings busy_t t_ok] in *; auto. lia.
Qed.
Lemma pstep_inv s : I s -> exists s', pstep s = Ok s' /\ I s'.
Proof.
  intros [H1 H2 H3 H4 H5 H6 H7 H8 H9 H10 H11]. unfold pstep. destruct s as [net t tj p pj res]; cbn [ra_net ra_t ra_tjobs ra_p ra_pjobs ra_results] in *. destruct p as [|i v r].
  - destruct pj as [|[x r] pj]; [eexists; split; [reflexivity|]; constructor; auto|]. destruct (nn_layers net) as [|a u] eqn:El; [congruence|]. eexists. split; [reflexivity|]. inversion H8 as [|? ? J1 J2]; subst. constructor; cbn [ra_net ra_t ra_tjobs ra_p ra_pjobs ra_results busy_p p_ok]; rewrite ?El; auto; [|cbn [List.length busy_p] in *; lia].
    split; [lia|]. exact J1.
  - destruct H7 as (Hi & Hv). destruct (nth_error (nn_layers net) i) as [l|] eqn:El.
    + destruct (test_layer_wf r _ l _ v (H2 i l El) Hv) as (o & l' & E & Lo & W & SL). rewrite E. cbn [bind]. eexists. split; [reflexivity|].
      assert (Hi2 : i < List.length (nn_layers net)) by (apply nth_error_Some; congruence).
      constructor; cbn [ra_net ra_t ra_tjobs ra_p ra_pjobs ra_results set_layer nn_layers nn_opt nn_trainings busy_p p_ok]; auto using replace_ne; [eapply sized_replace; eassumption|eapply replace_same; eauto using same_layer_trans|eapply t_ok_replace; eassumption|].
      split; [rewrite replace_length; lia|]. auto.
    + apply nth_error_None in El. assert (i = List.length (nn_layers net)) as -> by lia. eexists. split; [reflexivity|].
      constructor; cbn [ra_net ra_t ra_tjobs ra_p ra_pjobs ra_results flag nn_layers nn_opt nn_trainings busy_p p_ok] in *; auto; [|rewrite app_length; cbn [List.length]; lia].
      apply Forall_app. split; [exact H9|]. constructor; [|constructor]. rewrite Hv. f_equal. symmetry. clear - H3. induction H3; cbn; congruence.
Qed.
Lemma run_inv sched : forall s, I s -> exists s', run sched s = Ok s' /\ I s'.
Proof.
  unfold run. induction sched as [|[|] sched IH]; intros s H; cbn [ofold]; [eauto| |].
  - destruct (tstep_inv s H) as (s1 & E & H1'). rewrite E. cbn [bind]. exact (IH s1 H1').
  - destruct (pstep_inv s H) as (s1 & E & H1'). rewrite E. cbn [bind]. exact (IH s1 H1').
Qed.
End Steps.
End P.
